# A Rocq model of TauPy (obspy.taup at the pinned commit)

## 1. What is modelled and how

The Python source is modelled as a shallow, functional program in Coq, one
definition per Python function, branch by branch.  Every model definition
carries a comment with the file and lines it models (for instance
`taupy/TauModel.py:55-162`) and any simplification.

* **Exceptions** are values: `result A := Ok a | Raise e | Diverge`
  (`theories/Base.v`).  `Diverge` means "the fuel given to a `while` loop was
  exhausted"; theorems about total correctness show that it does not occur for
  a sufficiently large fuel, or (for refutations) that it occurs for every fuel.
  The state left behind by a call that raises is not modelled.
* **Numbers**.  All numeric code is written against a law-free type class `Num`
  (`theories/Num.v`): arithmetic, comparisons, decimal literals.  There are two
  instances: `R` (Coq reals, exact arithmetic) and `b64` (IEEE-754 binary64,
  Coq's own executable `SpecFloat`, 53/1024).  So there are three kinds of
  theorems: law-free ones (valid for doubles *and* reals), theorems using only
  order laws `NumOrd` (valid for reals and for non-NaN doubles), and theorems
  in exact real arithmetic.  The manifest note says which kind each one is.
  Python division raises `ZeroDivisionError`; numpy division (`np_div`) yields
  inf/nan on doubles and the pseudo exception `NonFinite` on reals.
* **libm** (`sqrt`, `sin`, ...) is a second class, `Libm`: for `R` it is the
  mathematical function (with Python's domain errors), for `b64` it stays
  abstract (a parameter of the theorem).
* **Mutation and aliasing.** Lists mutated in place are threaded as state;
  loops over a list that is mutated while iterated are modelled by index.
  Object identity matters in one place (slowness layers shared by the P and the
  S list, compared with `list.index`): layer records carry an identity number.
  The class attribute `TauModel.noDisconDepths` (a list shared by all models) is
  an explicit world state.
* **Sets** (`set()` in `parsePhaseList`): the order of the result is an abstract
  parameter `order`, about which only "duplicate free and same elements" is
  assumed.
* **Strings** are ASCII strings (`theories/PyStr.v`).

## 2. Model files and what they cover

| File | Python source |
|---|---|
| `Base.v`, `Num.v`, `PyStr.v` | Python control flow, numbers, strings |
| `VelocityModel.v` | VelocityLayer.py, VelocityModel.py (lookup, evaluation, validation, reading .tvel) |
| `SlownessLayer.v` | SlownessLayer.py, helper_classes.py (records, Bullen layers) |
| `SlownessModel.v` | SlownessModel.py (critical points, sampling, refinement checks, search, validation, splitting) |
| `TauModel.v` | TauModel.py, TauBranch.py (ray parameters, branches, depth correction, branch splitting, paths in a branch) |
| `Legs.v` | `legPuller`, `getPhaseNames`, `parsePhaseList`, `closestBranchToDepth` |
| `SeismicPhase.v` | SeismicPhase.py (`parseName`, `addToBranch`, `sumBranches`, `calcTime`, `linearInterpArrival`, purist names) |
| `Pierce.v` | pierce points and ray paths in SeismicPhase.py, Arrival.py |
| `TauPTime.v` | TauP_Time.py (runs, caching of phases, sorting, great circle distance), model file names |
| `Api.v` | tau.py: argument binding of the calls for pierce points and ray paths |
| `Printing.v` | the printed output of TauP_Time.py and get_travel_times, `__str__` of Arrival and Arrivals; decimal formatting of numbers |
| `Views.v` | TauP_Pierce.py and TauP_Path.py: source and added depths, runs, printing of pierce points and paths (methods, for an object whose constructor would have succeeded) |
| `CommandLine.v` | TauP_Time.py: `readcmdLineArgs` (from the texts delivered by argparse) and the command |
| `Create.v` | TauP_Create.py (without its command line), `create_taup_model`, setup.py `build_models`; the file system as maps from paths |

Not modelled: matplotlib plotting, argparse itself (library), the pickle
format (a loaded model is a value), the `__str__` methods of models, layers and
branches, `DEBUG` prints, SphericalSModel.py,
`readNDFile` (raises NotImplementedError) and `getEarliestArrival` (an empty stub).  Numpy arrays are lists.  Floating-point *rounding*
is only modelled where the b64 instance is used; theorems about `R` speak about
exact arithmetic.

## 3. Property files

Each cluster consists of a specification `XSpec.v` (vocabulary that does not
use the model's helper functions), lemmas `X*Proofs.v`, and `XProps.v` with the
theorems named in MANIFEST.json, concrete Examples beside them and
`Print Assumptions` for each.

| Properties | Files | How |
|---|---|---|
| C01-C04, C31, C32, C42 | Name* | scanner and grammar by induction on the name; `parseName` run on the default phases with symbolic branch numbers |
| C05-C09 | Time*, CalcTime* | loop invariants of `calcTime`; binary64 witness for non-termination |
| C10-C14 | Vel* | induction on layer lists, order laws |
| C15-C19, C46 | Bullen*, Shell* | real analysis on the layer formulas |
| C20, C21, C23 | Slow* | search with fuel, list invariants of the stateful sampling |
| C22, C44 | Crit*, SlowReal* | state machine of `findCriticalPoints` |
| C24-C27, C29 | Tau* | branches, running minima |
| C28, C43, C47 | Split* | layer splitting; refutations |
| C30, C39 | Query* | state machine of `TauP_Time`, induction over histories |
| C33, C34 | Curve* | sums of legs |
| C35 | Pierce*, Route* | pierce points along the route of a phase |
| C36 | Path* | ray paths |
| C37 | Angle* | Snell's law |
| C38 | Geo* | vectors on the sphere |
| C40, C41 | Api* | model names, interface |
| C45 | Sample* | sampling limits |
| C48 | Mono* | monotone branches |
| C49 | Stack* | coarse sampling |
| C50 | Find* | turning depths |
| C51 | Zone* | high slowness zones |
| C52 | Limit* | ray parameter limits of branches |
| C53 | Source* | buried sources |
| C54 | Create* | building and finding model files |
| C55 | Range* | ray parameter ranges of standard phases, along the proofs of C32 |
| C56 | Err* | distance of interpolated arrivals from exact rays |
| C57 | Inside* | sources inside layers, by the additivity of the layer integrals (C17) |
| C58 | Deep* | accuracy of arrivals from sources inside layers; which distance queries are answered (C56 and C57 combined) |
| C59 | Print* | printed output: decimal rounding, words and columns of the table, messages about refused names |
| C60 | View* | drawn ray paths: points shown, spacing, end; errors for paths that go back |
| C61 | View* | printed pierce points and their selection |
| C62 | Add* | runs for pierce points and paths, added depths |
| C63 | Command* | case analysis of the options; the command is reduced to the run of C59 |
| C64 | Accept* | each call of the correction is shown to succeed: lookups from the tiling of layers and branches (C25, C29), the walks of createBranch and difference from the rays of the unsplit branch (C57) |
| C65 | Compat* | invariant of the synchronisation loop over a list that grows while it is walked: every S layer passed has its top and bottom slowness outside the interior of all P layers; later refinements add each sample to both lists and only cut layers |
| C66 | Ready* | one lemma for the fold over critical depths with an invariant as parameter: for P, samples are clear of the ray parameters (C65); for S, the limit of a branch stays below all slownesses passed, so a ray stopped inside a layer is the least slowness above it. Conversely that slowness is a ray parameter and is below all limits down to its branch |
| C67 | Fall* | invariant of the while loop of the distance check: every layer above the current one does not rise or is part of a layer with an end in a zone. Passing a layer computes the distance of the ray with its bottom slowness, which raises if the layer rises. Conversely every part of a rising layer of the first sampling rises |
| C68 | End*, FinProofs | more steps change nothing: a relation between outcomes that every construct of the model keeps. Termination: no part of the code outside the loops can run out of steps, the bisection ends on layers that meet (C20), folding ends on the reals (C09), the cache search is given enough steps by the model, and cuts leave layers that meet (C57) |
| C69 | Insert* | the loop that sums from the surface as a list of increments; arrays after assignments to entries, read back entry by entry |
| C70 | Jump* | the list of depths as a strictly sorted list with given members; jumps by evaluating on both sides |
| C71 | Check* | rays as sums over layers; a model with no added sample as loop invariant, the number of layers as a measure that an added sample increases |
| C72 | Fix* | loops whose body keeps the model or adds layers: the same model at the end means that every body kept it |
| C73 | Chord* | Bullen layers with slope r/v: times and distances telescope to acos and sqrt; the tangent of the chord bounds the interpolation |
| C74 | Echo* | the distance of two points on two spheres, its tangents from below, and the line through any two points that see each other |
| C75 | Fast* | each leg is a segment of a line; triangle inequality over the legs; textbook routes are unbroken |
| C76 | Once* | monotone curves pass a distance on one interval only; distances of chords and echoes are monotone in the ray parameter |
| C77 | Purist* | each leg of the tokenized name is mapped on its own; carets always fail; nearest discontinuity as in C31 |
| C78 | Reach* | checks in layerTimeDist make all sums non-negative; an inserted point is part of the sum of a sample inside the range, which the maximum covers |
| C79 | Graze* | the curve has two points (C34), no zone can lie strictly between equal ray parameters; C07 and C08 on that interval |
| C80 | Join* | a ray parameter determines its sample; sums over legs depend only on the multiset of branch and wave type |
| C81 | Multi* | C80 for repeated legs, then C07 and C08 for both phases on the same interval |
| C82 | Surface* | C32 gives the legs of joined and repeated names, then C80 and C81 |
| C83 | Append* | C32 for names with an appended part; sums split at the join (C80) |
| C84 | Depth* | C32 for the four names; branches split at the source, sums of permuted crossings (C80) |

`Toy.v` (an executable toy libm and a small Earth in binary64), `RealRun.v`,
`SlowRun.v` (tactics that run the model on real numerals), `BuildRun.v` and
`TwoRun.v` (complete constructions over the reals) serve Examples and refutation witnesses
only.

Statements that turn out false of the code are proved as `_refuted` with a
witness (or as a universal negative); a theorem that covers part of a property
only would carry the suffix `_partial`.

## 4. Trusted base

* the Coq 8.16.1 kernel (including `vm_compute`);
* the axioms printed by `Print Assumptions` after each property theorem in
  `theories/*Props.v`: none for the law-free and order-law theorems; for
  theorems about `R` a subset of those of Coq's `Reals`:
  `ClassicalDedekindReals.sig_forall_dec`, `ClassicalDedekindReals.sig_not_dec`,
  `FunctionalExtensionality.functional_extensionality_dep`,
  `Classical_Prop.classic`;
* the faithfulness of the hand-written model to the Python source (cited lines).
  Deliberate simplifications are stated at the definitions; the main ones are:
  exact arithmetic for `R`, ASCII strings, an abstract libm for doubles, the
  abstract order of sets, division by zero in numpy code over `R` as an
  exception, fuel for loops.

## 5. Checking the theorems against wrong programs

`seeded/LOG.jsonl` lists faults seeded into a scratch copy of the model (wrong
boundary, missed case, swapped argument, dropped update) with the theorems that
failed to prove, and those tightened because they still proved.
