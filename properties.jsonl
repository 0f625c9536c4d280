{"id": "C01", "title": "Phase names tokenise losslessly", "statement": "For every phase name, splitting it into legs either raises TauModelError or returns a non-empty list of legs, ended by exactly one END marker, whose concatenation (without END) is the name itself; it never loops forever and never raises any other exception. A name ending in 'kmps' is returned as one leg. The exact set of accepted names is characterised by a small grammar.", "quantifier": "every string (any length, any characters)", "why_tests_cant": "The set of names is infinite; the tokenizer is a hand written offset loop with look-ahead, tests use a few names.", "anchors": ["taupy/SeismicPhase.py:legPuller"]}
{"id": "C02", "title": "Numeric discontinuity depths in phase names (documented p^410P -> p,^410,P)", "statement": "The documentation says p^410P is split as 'p','^410','P'. In the code this is false: a leg produced by the tokenizer never holds more than one digit and never holds '^' or 'v' together with a depth, for any name.", "quantifier": "every string accepted by the tokenizer", "why_tests_cant": "Needs a statement about all names: no name at all yields a multi-digit depth leg.", "anchors": ["taupy/SeismicPhase.py:legPuller"]}
{"id": "C03", "title": "Under/top-side reflection names never produce a phase", "statement": "Asking for any phase whose name contains '^' or 'v' never yields travel times: building the phase raises TauModelError when the name cannot be split into legs, and IndexError or ValueError otherwise; in the latter case the error escapes get_travel_times, which only skips phases raising TauModelError.", "quantifier": "every phase name containing ^ or v, every tau model", "why_tests_cant": "Universal over names and earth models.", "anchors": ["taupy/SeismicPhase.py:SeismicPhase.createPuristName", "taupy/SeismicPhase.py:legPuller", "taupy/TauP_Time.py:TauP_Time.recalcPhases"]}
{"id": "C04", "title": "Phase list expansion is exact", "statement": "parsePhaseList returns each requested or alias-expanded phase exactly once and nothing else; aliases (ttp, ttp+, tts, tts+, ttbasic, ttall) are recognised in any letter case; any other string stands for itself; the alias sets are nested ttp <= ttp+ <= ttbasic <= ttall and tts <= tts+ <= ttbasic <= ttall; the result as a set does not depend on order or repetition of the input list.", "quantifier": "every list of strings", "why_tests_cant": "Lists are unbounded; set/union laws are universally quantified.", "anchors": ["taupy/TauP_Time.py:parsePhaseList", "taupy/TauP_Time.py:getPhaseNames"]}
{"id": "C05", "title": "Travel times are returned sorted, complete and once each", "statement": "The list returned by get_travel_times is sorted by arrival time and is a permutation of the concatenation of every phase's own arrivals (nothing lost, duplicated or altered), arrivals with equal times keeping the order of the phases.", "quantifier": "every model, depth, distance and phase list for which the call returns", "why_tests_cant": "Universal over arrival lists; tests look at a handful of phases.", "anchors": ["taupy/TauP_Time.py:TauP_Time.calcTime", "taupy/TauP_Time.py:TauP_Time.sortArrivals", "taupy/tau.py:TauPyModel.get_travel_times"]}
{"id": "C06", "title": "Every arrival is at the requested distance", "statement": "For any requested distance in degrees (negative, above 180, above 360) every arrival's dist is that distance up to whole turns and direction (its cosine equals the cosine of the request), and Arrival.getModuloDistDeg gives back the request folded into [0,180].", "quantifier": "every real distance and every phase", "why_tests_cant": "Infinite range of distances and number of laps.", "anchors": ["taupy/SeismicPhase.py:SeismicPhase.calcTime", "taupy/Arrival.py:Arrival.getModuloDistDeg"]}
{"id": "C07", "title": "No arrival is missed and none is invented", "statement": "An arrival is reported for a ray interval (two neighbouring sampled rays of the phase) and a folded distance 2n*180+d or 2(n+1)*180-d exactly when the distance lies between the interval's two distances, the interval is not a shadow zone and the hit is not the shared end point already reported by the next interval.", "quantifier": "every sampled distance/time curve of every length, every distance, every number of laps", "why_tests_cant": "Completeness quantifies over all intervals and laps.", "anchors": ["taupy/SeismicPhase.py:SeismicPhase.calcTime"]}
{"id": "C08", "title": "Interpolated arrivals stay on the sampled travel-time curve", "statement": "The reported time and ray parameter are the linear interpolation of the two samples bracketing the distance: they lie between the samples' values, reproduce a sample exactly when the distance hits it, and the time is continuous across neighbouring intervals.", "quantifier": "all bracketing sample pairs and distances", "why_tests_cant": "Real-valued inequality over all inputs.", "anchors": ["taupy/SeismicPhase.py:SeismicPhase.linearInterpArrival"]}
{"id": "C09", "title": "Distance folding terminates", "statement": "For real arithmetic the folding of the requested distance and the lap loop terminate for every request and every finite maximum distance; in IEEE double arithmetic the folding loop does not terminate for a large finite request (refutation).", "quantifier": "all real distances; a concrete double for the refutation, all iteration counts", "why_tests_cant": "Non-termination cannot be observed by a test; termination needs all inputs.", "anchors": ["taupy/SeismicPhase.py:SeismicPhase.calcTime"]}
{"id": "C10", "title": "Velocity layer lookup", "statement": "In a velocity model whose layers are contiguous with positive thickness, layerNumberBelow(d) succeeds exactly for top<=d<bottom and layerNumberAbove(d) exactly for top<d<=bottom, each returning the unique layer containing d, the lower resp. upper one on a boundary; TauPException otherwise.", "quantifier": "every contiguous model with any number of layers, every depth, for reals and for IEEE doubles", "why_tests_cant": "Unbounded number of layers and boundary cases.", "anchors": ["taupy/VelocityModel.py:VelocityModel.layerNumberAbove", "taupy/VelocityModel.py:VelocityModel.layerNumberBelow"]}
{"id": "C11", "title": "Velocity evaluation interpolates linearly", "statement": "evaluateAbove/evaluateBelow return the layer's top and bottom values at its ends, stay between them inside, agree with each other wherever the model is continuous, and raise TauPException for unknown properties or depths outside.", "quantifier": "all contiguous models, depths and property names", "why_tests_cant": "Real-valued and unbounded.", "anchors": ["taupy/VelocityModel.py:VelocityModel.evaluateAbove", "taupy/VelocityModel.py:VelocityModel.evaluateBelow", "taupy/VelocityLayer.py:VelocityLayer.evaluateAt"]}
{"id": "C12", "title": "VelocityModel.validate decides exactly its stated conditions", "statement": "validate() returns True exactly when the header depths/radii are ordered and positive and every layer follows its predecessor without gap, is not of zero thickness, has positive P, non-negative S velocity and does not run into zero S velocity. It does not guarantee increasing depth: a model with a layer of negative thickness passes (refutation).", "quantifier": "all velocity models with at least one layer", "why_tests_cant": "Equivalence over all models.", "anchors": ["taupy/VelocityModel.py:VelocityModel.validate"]}
{"id": "C13", "title": "Reading a .tvel file", "statement": "For every file that is accepted the layers are exactly the consecutive pairs of distinct-depth rows, numbered 0,1,2..., so they are contiguous and never of zero thickness, with the row values at their ends; the radius is the last depth. Files with S>P, with missing density or non-numeric columns are rejected with the documented exceptions.", "quantifier": "every list of text lines", "why_tests_cant": "All files.", "anchors": ["taupy/VelocityModel.py:VelocityModel.readTVelFile"]}
{"id": "C14", "title": "Major discontinuities are snapped to the nearest real one", "statement": "After fixDisconDepths the Moho is the discontinuity nearest to the previous Moho depth among those closer than 65 km (first one on ties), or 0 when none; the CMB the nearest discontinuity closer than the radius, or the radius; the inner core boundary the nearest fluid-to-solid one closer than radius-100 km, or the radius (also when it coincides with the CMB). The return value is whether a nearest depth differs from the old one.", "quantifier": "all velocity models", "why_tests_cant": "Minimisation over arbitrarily many discontinuities.", "anchors": ["taupy/VelocityModel.py:VelocityModel.fixDisconDepths"]}
{"id": "C15", "title": "Ray increments in a Bullen layer are the ray integrals", "statement": "For every layer at least 1e-9 km thick with positive radii and different positive slownesses, bullenRadialSlowness succeeds exactly for ray parameters that are non-negative and not larger than either slowness; time and distance are then the (non-negative) ray integrals of y^2/(r sqrt(y^2-p^2)) and p/(r sqrt(y^2-p^2)) over the layer, y = A r^B being the one power law through its ends. Thinner layers give zero; with equal slownesses it raises ZeroDivisionError.", "quantifier": "all real layers and ray parameters", "why_tests_cant": "Real-valued universal claim, including that internal guards never fire.", "anchors": ["taupy/SlownessLayer.py:SlownessLayer.bullenRadialSlowness"]}
{"id": "C16", "title": "Ray parameter is the slope of the travel-time curve inside a layer", "statement": "For the time T(p) and distance X(p) returned by bullenRadialSlowness, dT/dp = p dX/dp, and tau = T - pX has derivative -X, for every p strictly below both slownesses.", "quantifier": "all real layers and ray parameters", "why_tests_cant": "Calculus identity over a continuum.", "anchors": ["taupy/SlownessLayer.py:SlownessLayer.bullenRadialSlowness", "taupy/TauBranch.py:TauBranch.createBranch"]}
{"id": "C17", "title": "Splitting a slowness layer does not change travel times", "statement": "If a layer is split at a depth inside it with the slowness evaluateAtBullen gives there, the times and distances of the two parts add up to those of the whole layer, for every ray that passes through.", "quantifier": "all layers, depths inside, ray parameters", "why_tests_cant": "Real-valued universal identity.", "anchors": ["taupy/SlownessModel.py:SlownessModel.splitLayer", "taupy/SlownessLayer.py:SlownessLayer.evaluateAtBullen"]}
{"id": "C18", "title": "Depth-for-slowness and slowness-at-depth are inverse", "statement": "Within a layer bullenDepthFor returns a depth inside the layer at which evaluateAtBullen gives the requested slowness back, and conversely; at the ends they agree too; outside the slowness range bullenDepthFor raises SlownessModelError and outside the depth range evaluateAtBullen raises AssertionError.", "quantifier": "all layers and slownesses/depths", "why_tests_cant": "Real-valued universal identity.", "anchors": ["taupy/SlownessLayer.py:SlownessLayer.bullenDepthFor", "taupy/SlownessLayer.py:SlownessLayer.evaluateAtBullen"]}
{"id": "C19", "title": "Constant velocity layers obey straight-ray geometry", "statement": "In a shell that passes layerTimeDist's test for constant velocity, layerTimeDist returns the time and angle of the straight line: velocity*time is the euclidean distance of the end points under the returned angle, which is the difference of the two incidence angles given by Snell's law. Other ray parameters raise SlownessModelError. In the innermost layer the vertical ray takes the slowness at its top and a right angle.", "quantifier": "all shells and ray parameters up to the turning one", "why_tests_cant": "Real-valued universal identity.", "anchors": ["taupy/SlownessModel.py:SlownessModel.layerTimeDist"]}
{"id": "C20", "title": "Slowness layer search", "statement": "For contiguous slowness layers (zero-thickness ones allowed) layerNumForDepth terminates and returns a layer containing the depth, layerNumberAbove the shallowest and layerNumberBelow the deepest such layer; depths outside raise SlownessModelError. On a list with a gap the binary search can run forever (refutation).", "quantifier": "all layer lists of any length, all depths, reals and doubles", "why_tests_cant": "Binary search over unbounded lists; termination.", "anchors": ["taupy/SlownessModel.py:SlownessModel.layerNumForDepth", "taupy/SlownessModel.py:SlownessModel.layerNumberAbove", "taupy/SlownessModel.py:SlownessModel.layerNumberBelow"]}
{"id": "C21", "title": "Adding a slowness sample keeps the model gap free", "statement": "addSlowness leaves both layer lists contiguous in depth and slowness with unchanged first and last values, only replaces layers that strictly contain the sample by two halves meeting at it, and afterwards no eligible layer strictly contains the sample; layers shared by P and S (fluids) are replaced in both lists.", "quantifier": "all models, samples and wave types, any arithmetic", "why_tests_cant": "Invariant over arbitrary sequences of additions; in-place list mutation while iterating.", "anchors": ["taupy/SlownessModel.py:SlownessModel.addSlowness"]}
{"id": "C22", "title": "Sampling lies on the velocity model", "statement": "In exact arithmetic, if every thick layer's end slownesses are (radius-depth)/velocity at its ends, then so are those of the layers addSlowness creates, and the inserted depth lies strictly inside the split layer. Hence in a constructed slowness model (radius 6371) every thick P layer lies inside one velocity layer and on its P velocities, and every thick S layer on its S velocities, or on the P velocities in fluids and, when inner-core S waves are switched off, below the inner core boundary.", "quantifier": "all velocity models, layers and samples", "why_tests_cant": "Invariant over the continuum.", "anchors": ["taupy/SlownessModel.py:SlownessModel.addSlowness", "taupy/SlownessModel.py:SlownessModel.interpolate"]}
{"id": "C23", "title": "SlownessModel.validate decides exactly the sampling invariants, and every constructed model satisfies them", "statement": "validate() succeeds exactly when radius and depth interval are positive, high-slowness and fluid zones are ordered and non-overlapping with positive thickness, and each wave type's layers start at depth 0, are contiguous in depth and slowness, of non-negative thickness and slowness and not deeper than the radius; a SlownessModel that is successfully constructed satisfies this.", "quantifier": "all slowness models / all velocity models and parameters", "why_tests_cant": "Equivalence over all models.", "anchors": ["taupy/SlownessModel.py:SlownessModel.validate", "taupy/SlownessModel.py:SlownessModel.createSample"]}
{"id": "C24", "title": "Ray parameter samples are the strict running minima", "statement": "A tau model's rayParams start at the surface S slowness, are strictly decreasing and are exactly the S-layer slownesses smaller than everything above; the last one is the smallest slowness of the model.", "quantifier": "all slowness models", "why_tests_cant": "Unbounded lists.", "anchors": ["taupy/TauModel.py:TauModel.calcTauIncFrom"]}
{"id": "C25", "title": "Tau branches tile the Earth", "statement": "The branches of a tau model are contiguous in depth, there is one per pair of neighbouring critical depths and the same for P and S; each branch stores one time, distance and tau per ray parameter, with tau = time - p*distance, zero for rays that cannot enter. The list of branch boundaries consists of the top of the first branch and the bottoms of all branches but the last.", "quantifier": "all slowness models for which construction succeeds", "why_tests_cant": "Unbounded lists and samples.", "anchors": ["taupy/TauModel.py:TauModel.calcTauIncFrom", "taupy/TauBranch.py:TauBranch.createBranch", "taupy/TauBranch.py:TauBranch.calcTimeDist"]}
{"id": "C26", "title": "Moho, CMB and inner-core branches are the nearest ones", "statement": "mohoBranch, cmbBranch and iocbBranch are branches whose top is nearest to the velocity model's depths (the deepest such for the Moho, the shallowest for the others) and mohoDepth, cmbDepth, iocbDepth are those tops.", "quantifier": "all tau models with at least one branch", "why_tests_cant": "Minimisation over unbounded lists.", "anchors": ["taupy/TauModel.py:TauModel.calcTauIncFrom"]}
{"id": "C27", "title": "Depth correction puts the source on a branch boundary and only splits there", "statement": "After depthCorrect(d) for a depth strictly inside the model that is not within 1 mm of a slowness layer boundary (unless on it) the branch numbered sourceBranch starts at d; the branch depths are the old ones plus d, the two parts of the split branch add up to the old branch for every ray, all other branches, and the Moho/CMB/inner-core depths, are unchanged and the branch numbers still point at them.", "quantifier": "all tau models, all depths", "why_tests_cant": "All depths, models.", "anchors": ["taupy/TauModel.py:TauModel.depthCorrect", "taupy/TauModel.py:TauModel.splitBranch", "taupy/TauBranch.py:TauBranch.difference"]}
{"id": "C28", "title": "The slowness at the source depth is sampled (documented) - refuted", "statement": "The documentation of depthCorrect says the slowness at the source depth is sampled exactly. For every model with decreasing ray parameters, depthCorrect never adds any ray parameter.", "quantifier": "all models with strictly decreasing rayParams, all depths", "why_tests_cant": "Universal negative statement.", "anchors": ["taupy/TauModel.py:TauModel.splitBranch"]}
{"id": "C29", "title": "Branch lookup", "statement": "findBranch(d) returns the unique branch with top<=d<bottom and raises TauModelError outside; at the centre of the Earth it should return the bottom branch but returns branch 1 whatever the number of branches (refutation).", "quantifier": "all contiguous tau models, all depths", "why_tests_cant": "Unbounded number of branches.", "anchors": ["taupy/TauModel.py:TauModel.findBranch"]}
{"id": "C30", "title": "Queries do not influence each other", "statement": "After any sequence of successful travel-time queries on a model (and of queries on other models whose source depths are no boundaries of this one), as long as no source depth is within 1 mm of a slowness layer boundary without being on it, the loaded model is unchanged and every query gives the same arrivals, or the same exception, as if it were the first. Refuted in the remaining cases: near a layer boundary the query replaces the S layers of the loaded model by its P layers, so later S arrivals are lost; and a source depth used with one model makes the boundary at that depth of another model unresolvable, because the list of non-discontinuity depths is shared by all models.", "quantifier": "all sequences of queries, all models with decreasing ray parameters and gap-free layers", "why_tests_cant": "Histories of calls.", "anchors": ["taupy/TauModel.py:TauModel.noDisconDepths", "taupy/TauModel.py:TauModel.splitBranch", "taupy/SeismicPhase.py:closestBranchToDepth"]}
{"id": "C31", "title": "Named and numeric discontinuities resolve to the nearest boundary", "statement": "closestBranchToDepth returns the Moho/CMB/ICB branch for m/c/i; for a one-digit depth exactly the first of the branches whose top is nearest to it among those whose top is not in the shared list of non-discontinuity depths, and -1 when there is none; ValueError for every other string.", "quantifier": "all models, all strings", "why_tests_cant": "Unbounded.", "anchors": ["taupy/SeismicPhase.py:closestBranchToDepth"]}
{"id": "C32", "title": "Standard phases follow the textbook branch sequence in every Earth model", "statement": "A phase name is textbook if it is built from mantle legs, core passages (K, KiK, KIK, KJK, any number of underside reflections), surface and core reflections, head and diffracted legs and the surface legs p, s, in any number. Every name of the default list (ttall) is textbook. For every layered model with a source above the CMB (any number of branches), every textbook name is accepted and the constructed branch sequence, wave types and directions are exactly those of the textbook ray (e.g. PKiKP: P down to the CMB, down to the ICB, reflect, up to the CMB, up to the surface), unless the phase has no ray at all because of a boundary leg, an upgoing first leg for a surface source, or an S leg from a source in the fluid core.", "quantifier": "every tau model with 0<=source<cmb<iocb branch numbers, every textbook name of any length", "why_tests_cant": "All earth models and unboundedly many names; tests use two models and a few names.", "anchors": ["taupy/SeismicPhase.py:SeismicPhase.parseName", "taupy/SeismicPhase.py:SeismicPhase.addToBranch"]}
{"id": "C33", "title": "Phase curves are the sum of their legs", "statement": "For every phase the stored distance and time of each sampled ray is the sum over the legs of the branch sequence of that leg's branch distance/time for the same ray, counted with multiplicity, and dist, time and rayParams have the same length. A high slowness zone crossed downwards adds, before the point at its own ray parameter, a point made of the legs above the zone for that same ray. This last part is false if zones of both wave types are in range: the points of the second type then use a later sample (refutation).", "quantifier": "all models, phases and ray samples", "why_tests_cant": "Unbounded legs, branches and samples.", "anchors": ["taupy/SeismicPhase.py:SeismicPhase.sumBranches"]}
{"id": "C34", "title": "Diffracted and head waves travel at their ray parameter", "statement": "For Pdiff/Sdiff the extra time along the core equals ray parameter times extra distance (up to 60 degrees). For Pn/Sn the extra time is NOT ray parameter times distance: it equals the distance in radians as seconds (refutation).", "quantifier": "all models and diffracted/head phases", "why_tests_cant": "Universal over models.", "anchors": ["taupy/SeismicPhase.py:SeismicPhase.sumBranches"]}
{"id": "C35", "title": "Pierce points are consistent with the arrival", "statement": "Pierce points start at the source with zero time and distance. Then comes one point per leg that takes more than 1e-10 s, at the depth where the leg ends (bottom, top or turning depth), with the sums over the legs so far of the two neighbouring model rays, mixed as the arrival lies between them. Time and distance never decrease, and for an ordinary phase the last point has the arrival's time and distance. Refuted: on the last sample of a phase that ends above the deepest ray the points are those of the next ray; next to a high slowness zone they disagree with the arrival. For head and diffracted waves the way along the boundary is shared out over the points at its depth; the total is right exactly if there are as many such points as the wave occurs in the name.", "quantifier": "all models, phases, arrivals", "why_tests_cant": "Universal; exact equality of two separately coded interpolations.", "anchors": ["taupy/SeismicPhase.py:SeismicPhase.calcPierceFromArrival", "taupy/SeismicPhase.py:SeismicPhase.handleHeadOrDiffractedWave"]}
{"id": "C36", "title": "Ray paths retrace the layers and end at the arrival", "statement": "A computed path starts at the source with zero time and distance and then has one point per layer crossed, at the boundary passed or at the turning point; each point's time and distance are the running sums of the steps, and nothing else of the arrival changes. Depths stay in the branch, never decrease on downgoing and never increase on upgoing legs; times and distances never decrease. Where slowness is monotone the upgoing leg retraces the downgoing one stretch by stretch, down to the bottom of the branch or to the depth at which the slowness equals the ray parameter. For sampled ray parameters of ordinary phases the path ends exactly at the time and distance of the phase's curve; for Pdiff and Sdiff it ends at the arrival's distance. Refuted: PdiffP and the like run along the core twice and overshoot the arrival; paths of Pn and Sn lack the way along the Moho altogether.", "quantifier": "all models, phases, arrivals", "why_tests_cant": "Unbounded paths; exact equality of two separately coded summations.", "anchors": ["taupy/SeismicPhase.py:SeismicPhase.calcPathFromArrival", "taupy/TauBranch.py:TauBranch.path"]}
{"id": "C37", "title": "Takeoff and incidence angles obey Snell's law", "statement": "Whenever an arrival is reported its takeoff and incidence angles lie in [-90,90] degrees and the sine times the radius is speed times ray parameter, at the source with the speed of the first leg's wave just below (downgoing) or just above (upgoing, with a minus sign) the source, at the surface with the speed of the last leg's wave. The takeoff angle is negative exactly for upgoing rays. For textbook names the waves and the direction are those of the first and last branch crossing. Surface waves (kmps) have both angles zero. On samples with distinct neighbouring distances and ray parameters that exist at source and surface the query returns a result.", "quantifier": "all phases, all distances, all arrivals", "why_tests_cant": "Real-valued universal claim.", "anchors": ["taupy/SeismicPhase.py:SeismicPhase.linearInterpArrival"]}
{"id": "C38", "title": "Great-circle distance is the angle between the two points", "statement": "great_circle_dist is always defined, lies in [0,180], equals the angle between the two position vectors, is symmetric, zero exactly for the same position, satisfies the triangle inequality and is unchanged when a longitude is shifted by full turns or both by the same amount. A query by coordinates is the query at that distance; an explicit distance wins; without either, or with a missing coordinate, ValueError.", "quantifier": "all real coordinates", "why_tests_cant": "Continuum.", "anchors": ["taupy/TauP_Time.py:great_circle_dist", "taupy/TauP_Time.py:TauP_Time.run"]}
{"id": "C39", "title": "Reusing a TauP_Time object gives the same result as a fresh one", "statement": "Whatever runs (with whatever calm depths, distances and non-empty phase lists) were made before on a TauP_Time object for a surface model, and whatever other source depths were used in between, the next run with a non-empty phase list leaves the same models, phases (up to object identity), depth and arrivals, or raises the same exception, as on a fresh object. With an empty phase list it does not: the phases of the previous run, even for another depth, are kept and give arrivals (refutation).", "quantifier": "all sequences of runs", "why_tests_cant": "Histories with in-place list mutation during iteration.", "anchors": ["taupy/TauP_Time.py:TauP_Time.depthCorrect", "taupy/TauP_Time.py:TauP_Time.recalcPhases", "taupy/TauP_Time.py:TauP_Time.calculate"]}
{"id": "C40", "title": "Model name resolution", "statement": "load(name) opens the packaged model named by the final path component without its extension whenever such a packaged model exists, otherwise the given name as a file; so the directory part never matters when a packaged model of that base name exists.", "quantifier": "all path strings and file systems", "why_tests_cant": "All strings.", "anchors": ["taupy/TauModelLoader.py:load", "taupy/utils.py:_get_model_filename"]}
{"id": "C41", "title": "Pierce points and ray paths are reachable from the high-level interface - refuted", "statement": "TauPyModel.get_pierce_points and get_ray_paths raise an exception for every argument, before computing anything: AttributeError, or TypeError if a user has set the missing attribute taup_model_path.", "quantifier": "all arguments and models", "why_tests_cant": "Universal negative statement.", "anchors": ["taupy/tau.py:TauPyModel.get_pierce_points", "taupy/tau.py:TauPyModel.get_ray_paths", "taupy/TauP_Pierce.py:TauP_Pierce.__init__"]}
{"id": "C42", "title": "Surface-wave phases (e.g. 3.5kmps) - refuted", "statement": "A surface wave phase (documented to give an arrival at the named speed) never yields one: construction raises TypeError (Python 3), which escapes get_travel_times, so a request including such a name returns nothing at all.", "quantifier": "all names ending in kmps, all models", "why_tests_cant": "Universal negative statement.", "anchors": ["taupy/SeismicPhase.py:SeismicPhase.parseName", "taupy/SeismicPhase.py:SeismicPhase.sumBranches"]}
{"id": "C43", "title": "Splitting a slowness layer at a source depth keeps the sampling valid", "statement": "When the source depth is not within 1 mm of an existing layer boundary, splitLayer leaves the receiver unchanged and returns a model whose layers of the split wave type are contiguous and contain the depth as a boundary. Depths, velocity layers and the other wave type's numbers of the critical depths stay; the split wave type's number goes up by one exactly below the cut if no other layer contains the new slowness. Within 1 mm of a boundary splitLayer overwrites the receiver, and for P replaces the S layers by the P layers (refutation); an inner P boundary moves to the depth for both its layers, but near the surface the bottom of the deepest layer moves there instead (refutation).", "quantifier": "all models and depths", "why_tests_cant": "Universal; aliasing and mutation.", "anchors": ["taupy/SlownessModel.py:SlownessModel.splitLayer", "taupy/SlownessModel.py:SlownessModel.fixOtherLayers"]}
{"id": "C44", "title": "Critical points are exactly the discontinuities and slowness reversals", "statement": "The critical depths found for a velocity model are the surface, each layer top where P or S slowness jumps or its gradient reverses (P slowness used in fluids), and the radius, in this order; fluid zones are the maximal runs of zero-S layers.", "quantifier": "all velocity models", "why_tests_cant": "Unbounded.", "anchors": ["taupy/SlownessModel.py:SlownessModel.findCriticalPoints"]}
{"id": "C45", "title": "Sampling limits: the depth limit holds, the slowness limit does not", "statement": "After depthIncCheck, and in every successfully constructed slowness model, no layer is thicker than maxDepthInterval, for P everywhere and for S wherever S velocities are sampled, unless the slowness is constant across the velocity layer (no sample can split it there). Checking a limit never removes a layer boundary. The corresponding limit of rayParamIncCheck on the slowness range is refuted: the samples it makes for a layer that spans more than maxDeltaP lie outside the layer, which therefore stays, and a model with one such layer passes the check unchanged whatever the limit.", "quantifier": "all velocity models with layers of positive thickness and positive velocities, all limits, all inputs of the checks", "why_tests_cant": "Loops over lists that grow while iterated; the limit must hold for every layer of every model.", "anchors": ["taupy/SlownessModel.py:SlownessModel.depthIncCheck", "taupy/SlownessModel.py:SlownessModel.rayParamIncCheck", "taupy/SlownessModel.py:SlownessModel.addSlowness"]}
{"id": "C46", "title": "Slownesses use the radius of the planet - refuted", "statement": "Slowness at radius r should be r/velocity with r measured from the centre of the modelled planet. The layers created from the velocity model always use radius 6371, so for every planet of another radius a constructed slowness model has the wrong slowness at its surface (and for most such planets construction fails).", "quantifier": "all velocity models with radius other than 6371 for which construction succeeds", "why_tests_cant": "Universal; packaged models all have radius 6371.", "anchors": ["taupy/SlownessLayer.py:create_from_vlayer", "taupy/SlownessModel.py:SlownessModel.coarseSample"]}
{"id": "C47", "title": "Splitting a layer adjusts the other wave type and the critical depths - refuted", "statement": "After splitLayer the layers of the other wave type should still be contiguous and every critical depth should still carry the numbers of the layers that start there. Neither holds: on a model with a fluid core, splitting an S layer of the inner core leaves gaps between the P layers, and splitting a P layer of the mantle leaves the core-mantle boundary with a layer number that belongs to a deeper layer.", "quantifier": "exists a constructed model and a depth", "why_tests_cant": "The wrong index arithmetic shows up only when several layers of the other wave type contain the new slowness.", "anchors": ["taupy/SlownessModel.py:SlownessModel.fixOtherLayers", "taupy/SlownessModel.py:SlownessModel.fixCriticalDepths"]}
{"id": "C49", "title": "Coarse sampling yields continuous slowness stacks", "statement": "The P and S layer stacks that coarseSample makes have no gaps, and the P slowness is continuous across every layer boundary. The S slowness is continuous exactly if S waves are allowed in the inner core or no solid layer with S velocity different from P velocity ends at the inner core boundary or below. Hence a slowness model without inner core S waves can only be constructed from a velocity model of the latter kind.", "quantifier": "all valid velocity models with layers of positive thickness, all sampling parameters", "why_tests_cant": "The stack is built by appending and by removing zero-thickness layers over a loop of unknown length.", "anchors": ["taupy/SlownessModel.py:SlownessModel.coarseSample", "taupy/SlownessModel.py:SlownessModel.validate"]}
{"id": "C50", "title": "The turning depth of a ray is found where the slowness says", "statement": "Asked for the depth between two given depths at which a ray of a given slowness turns, findDepth returns a depth in the first velocity layer between them in which the ray turns or at whose bottom it is totally reflected (an S wave above a fluid meets the P slowness there); the slowness at that depth is the given one, or the depth is a layer boundary within the slowness tolerance. Between two layer boundaries the result does not leave them. A depth is found whenever the slowness at the start is not below, and at the end not above the given one.", "quantifier": "all valid velocity models with layers of positive thickness, both wave types, all slownesses and depth ranges", "why_tests_cant": "The result depends on every layer in between; tests try a few slownesses in two models.", "anchors": ["taupy/SlownessModel.py:SlownessModel.findDepth_from_depths", "taupy/SlownessModel.py:SlownessModel.findDepth", "taupy/SlownessModel.py:SlownessModel.interpolate"]}
{"id": "C48", "title": "Branches end wherever the slowness turns around", "statement": "Between two neighbouring critical depths the sampled slowness only falls or only rises with depth: two sampled layers with no critical depth between them never go opposite ways, and every sampled layer of positive thickness goes one way or the other. So in each branch of the tau model a ray turns at most once.", "quantifier": "for every velocity model with layers of positive thickness, none of constant slowness, every choice of sampling parameters, P and S waves, exact real arithmetic", "why_tests_cant": "The construction cuts layers again and again by ray parameter, depth and range; tests look at a few bundled models only.", "anchors": ["taupy/SlownessModel.py:SlownessModel.findCriticalPoints", "taupy/SlownessModel.py:SlownessModel.createSample", "taupy/SlownessModel.py:SlownessModel.addSlowness", "taupy/TauModel.py:TauModel.calcTauIncFrom"]}
{"id": "C51", "title": "High slowness zones are the depths slower than everything above", "statement": "At a depth where the slowness exceeds (by the tolerance) the least slowness M found at the top of its layer and anywhere above, there is a high slowness zone and its ray parameter is M; zones contain no other depths (up to the tolerance). So depthInHighSlowness answers true at such a depth exactly for ray parameters above M. The code misses two kinds of zone: slowness that rises right from the surface, and slowness that rises below a layer of constant slowness.", "quantifier": "for every velocity model with layers of positive thickness, none of constant slowness, the first with falling slowness, P waves and, where S waves are allowed in the inner core, S waves; exact real arithmetic", "why_tests_cant": "The search carries minima and open zones over an unknown number of layers; the bundled models have two or three zones in all.", "anchors": ["taupy/SlownessModel.py:SlownessModel.findCriticalPoints", "taupy/SlownessModel.py:SlownessModel.depthInHighSlowness", "taupy/SlownessModel.py:SlownessModel.findDepth"]}
{"id": "C52", "title": "Branches carry the least slownesses met on the way down", "statement": "The greatest ray parameter stored with a branch is the least of all slownesses that a ray from the surface meets down to the top of the branch, both sides of that depth included; it never grows from one branch to the next. The least turning ray parameter of a branch is the slowness at the bottom of the layer above its lower end or, in a high slowness zone, the least slowness met down to there; the least ray parameter takes the lower side into account as well. Where two branches meet in a high slowness zone, the least ray parameter of the upper one equals the greatest of the lower one.", "quantifier": "for every slowness model built from a velocity model with layers of positive thickness and every branch of the tau model; the greatest ray parameters in exact real arithmetic, the functions for the least ones for all layer stacks over every ordered number type", "why_tests_cant": "The minima are carried over branches and layers whose number grows with the sampling; a sample missed at one boundary only shows as a phase with a wrong ray parameter range.", "anchors": ["taupy/TauModel.py:TauModel.calcTauIncFrom", "taupy/TauBranch.py:TauBranch.createBranch", "taupy/SlownessModel.py:SlownessModel.getMinTurnRayParam", "taupy/SlownessModel.py:SlownessModel.getMinRayParam"]}
{"id": "C53", "title": "A source below the surface leaves the rays intact", "statement": "Correcting a tau model for a source at a depth where layers of both wave types meet (in a high slowness zone, or where nothing above has a lower slowness) cuts one branch in two without touching the layers or the ray parameters, and in every branch of the corrected model the stored times and distances are again exactly the sums over the layers that each ray crosses within it, the slowness still only falls or only rises, and the greatest ray parameter is the least slowness met down to its top. A source at the edge of a branch changes no branch at all. So the paths of C36 end where and when the arrival says for buried sources too.", "quantifier": "for every slowness model built from a velocity model with layers of positive thickness, every sampled source depth of that kind, P and S, exact real arithmetic", "why_tests_cant": "The lower part of the cut branch is computed by subtracting sample lists; an error for rays that turn above the source shows only for few combinations of depth and ray.", "anchors": ["taupy/TauModel.py:TauModel.depthCorrect", "taupy/TauModel.py:TauModel.splitBranch", "taupy/TauBranch.py:TauBranch.difference", "taupy/TauBranch.py:TauBranch.createBranch", "taupy/SlownessModel.py:SlownessModel.splitLayer"]}
{"id": "C54", "title": "Model files are built from the right input and found again by name", "statement": "Building writes, for each velocity file, the tau model computed from that file with the documented default sampling (slowness steps 0.1 to 11 s/rad, depth steps up to 115 km, distance steps of 2.5 degrees, interpolation error 0.05 s), creates the directory when it is missing, and touches no other file; afterwards loading any name of that stem gives exactly that model. A build that fails does so with the error of one of its files. Three things do not hold: an output name without directory silently stores nothing, a model called a.b.tvel cannot be loaded as a.b, and create_taup_model always raises AttributeError.", "quantifier": "all file systems, directories, velocity files, lists of files with distinct stems, output names with and without directory; every arithmetic (the default values: exact reals)", "why_tests_cant": "Needs all combinations of file system states and names; the tests build the bundled models once at installation.", "anchors": ["taupy/TauP_Create.py:TauP_Create", "setup.py:build_models", "taupy/utils.py:_get_model_filename", "taupy/TauModelLoader.py:load", "taupy/tau.py:create_taup_model"]}
{"id": "C55", "title": "The ray parameter range of a phase is that of rays which exist on every leg", "statement": "The ray parameters between the least and the greatest one of a standard phase (any name built from P, S, c, K, i, I, J, Pn, Pg, Pdiff and a leading p or s) are exactly those of rays that can leave the source and travel every leg: a turning leg needs a ray that has not left the deepest branch of its region, a reflected or transmitted leg one that reaches the boundary, every conversion one that exists as both wave types there, head and diffracted waves only the ray grazing the boundary. If no ray satisfies all of these the phase is empty. The only further exception is a diffracted phase in a model whose mantle ends in a high slowness zone.", "quantifier": "for all tau models with any number of branches and any non-NaN limits and every source above the core, every standard name of any length; reals and doubles", "why_tests_cant": "The bounds of all legs combine; tests see single ray parameters of a few phases in one Earth model, where most bounds are implied by others.", "anchors": ["taupy/SeismicPhase.py:SeismicPhase.parseName", "taupy/SeismicPhase.py:SeismicPhase.addToBranch", "taupy/SeismicPhase.py:SeismicPhase.phaseConversion", "taupy/SeismicPhase.py:SeismicPhase.sumBranches"]}
{"id": "C56", "title": "Reported times lie within a bound of the times of exact rays", "statement": "Between two neighbouring samples of a phase the reported arrival time differs from the travel time of an exact ray to the same distance by at most the step of the ray parameter times the distance that the sampled ray covers in the layers in which the exact ray turns, plus a quarter of the step times the fall of distance. The exact ray follows the ray integrals through the slowness laws of the layers on every leg of the phase. Such a ray exists for every arrival between two samples that all legs admit. An arrival whose ray only crosses layers or is reflected is never reported early.", "quantifier": "for all models whose layers are regular, all phases without diffracted or head waves, all distances and all pairs of neighbouring samples with no slowness of the model between them; exact reals", "why_tests_cant": "No test knows the exact ray: reference tables come from other interpolating programs, and the bound concerns every pair of samples of every model.", "anchors": ["taupy/SeismicPhase.py:SeismicPhase.linearInterpArrival", "taupy/SeismicPhase.py:SeismicPhase.calcTime", "taupy/SeismicPhase.py:SeismicPhase.sumBranches", "taupy/TauBranch.py:TauBranch.calcTimeDist", "taupy/SlownessModel.py:SlownessModel.layerTimeDist", "taupy/SlownessLayer.py:bullenRadialSlowness"]}
{"id": "C57", "title": "A source inside a layer leaves the rays intact", "statement": "Correcting a tau model for a source strictly inside a layer (at least 1 mm from its ends) cuts that layer, and at most one layer of the other wave type, in pieces that follow the same slowness law, so that no slowness changes at any depth; the ray parameters stay, layers of both wave types now meet at the source, and in every branch of the corrected model, the cut one and all others, the stored times and distances are again exactly the sums over the layers that each ray crosses within it, the slowness still only falls or only rises, and the greatest ray parameter is the least slowness met down to its top. So the paths of C36 end where and when the arrival says for these sources too.", "quantifier": "for every slowness model built from a velocity model with layers of positive thickness whose layers the code treats by its exact formulas, and every source depth whose slowness occurs inside at most one layer of the other wave type and is not above one met before (or lies in a high slowness zone); exact reals", "why_tests_cant": "The times of the unchanged branches were summed over other layers than those of the corrected model, and the times below the source are a difference of two such sums; that they agree needs the additivity of the layer integrals for every ray and every cut.", "anchors": ["taupy/SlownessModel.py:SlownessModel.splitLayer", "taupy/SlownessModel.py:SlownessModel.fixOtherLayers", "taupy/TauModel.py:TauModel.depthCorrect", "taupy/TauModel.py:TauModel.splitBranch", "taupy/TauBranch.py:TauBranch.difference", "taupy/SlownessLayer.py:evaluateAtBullen", "taupy/SlownessLayer.py:bullenDepthFor"]}
{"id": "C58", "title": "Arrivals from sources inside layers are accurate, and which queries are answered", "statement": "For a source strictly inside a layer every arrival between two samples belongs to an exact ray from the source to the same distance, and the reported time differs from the travel time of this ray by no more than the bound of C56. A query for a distance is answered exactly if, wherever the sampled curve of the phase passes this distance, the two samples have different distances and the interpolated ray parameter has angles of departure and arrival by Snell's law. It is not true that every query is answered: the first sample of p from a buried source may be a ray that does not exist at the source, and distances near it make the query fail with a domain error.", "quantifier": "for every model of C57 corrected for a source depth of C57, all phases without diffracted or head waves, all distances; the second part for all phases with matching samples and all distances; exact reals", "why_tests_cant": "The bound concerns every depth and every pair of samples; failures happen only at distances close to the epicentre that the tests do not ask for.", "anchors": ["taupy/SeismicPhase.py:SeismicPhase.linearInterpArrival", "taupy/SeismicPhase.py:SeismicPhase.calcTime", "taupy/SeismicPhase.py:SeismicPhase.sumBranches", "taupy/TauModel.py:TauModel.depthCorrect", "taupy/TauModel.py:TauModel.splitBranch", "taupy/SlownessModel.py:SlownessModel.splitLayer"]}
{"id": "C59", "title": "What a query with output prints", "statement": "A query with print_output=True prints the same messages as one without, then the model name, two heading lines, a rule and one line per arrival, in the order in which the query without output returns them, and returns None; it fails exactly as the query without output. The words of a line are the distance folded to 0..180 degrees, source depth, name, time, ray parameter in s/deg, takeoff and incident angle, travelled distance in degrees, a mark telling whether the purist name equals the name, and the purist name; every number is the correctly rounded decimal (halves to even) with its fixed number of decimals. Numbers of ordinary size end, and names begin, at columns fixed by the longest name, under the headings of time and ray parameter if some name has two letters or more; with one-letter names the headings are shifted. A takeoff angle of minus zero is printed as zero. The messages are exactly the names refused by the phase constructor with TauModelError, once if the model is already corrected for the depth and twice otherwise. str() of a list of arrivals is the count and one line per arrival with its name and time to three decimals.", "quantifier": "for all models, depths, distances or coordinates, phase lists and arrivals; the messages and failures for any arithmetic, the numbers for exact reals and for doubles, the table for exact reals with lines also for doubles", "why_tests_cant": "The tests compare a few printed tables; rounding of ties, widths of long names, empty tables and refused names are unbounded families of inputs.", "anchors": ["taupy/TauP_Time.py:TauP_Time.printResult", "taupy/TauP_Time.py:TauP_Time.run", "taupy/TauP_Time.py:TauP_Time.recalcPhases", "taupy/tau.py:TauPyModel.get_travel_times", "taupy/tau.py:Arrivals.__str__", "taupy/Arrival.py:Arrival.__str__", "taupy/Arrival.py:Arrival.getModuloDistDeg"]}
{"id": "C60", "title": "A drawn ray path shows the path and nothing else", "statement": "After a run for ray paths TauP_Path prints, for every arrival, a line about it and then one line with distance and radius for each point of a drawing of its path. The drawing shows only points on the path (points of the path, or points interpolated between two neighbours) up to the maximal time, in the order of the path, neighbouring ones at most the given number of degrees apart unless the ray is vertical; it contains every point of the path before the maximal time and ends with the end of the path or with the point reached at that time. Printing never fails for computed paths. It is not true that a path that goes back is reported as an error: only negative distances are.", "quantifier": "all arrivals with a path whose time and distance never fall, all path lengths, positive increments, maximal times, radii; all runs on models for which paths are defined; exact reals", "why_tests_cant": "Interpolation depends on where each pair of neighbouring points lies relative to the increment and the maximal time; the project has no test of TauP_Path.", "anchors": ["taupy/TauP_Path.py:TauP_Path.printResult", "taupy/TauP_Path.py:TauP_Path.printDistRadius", "taupy/TauP_Path.py:TauP_Path.calcPath", "taupy/TauP_Pierce.py:TauP_Pierce.getCommentLine"]}
{"id": "C61", "title": "Which pierce points are printed", "statement": "For an arrival with pierce points TauP_Pierce prints a line about the arrival and then one line with distance, depth and time for each selected point, in order: all points if no selection is asked for, those at the added depths if only these are wanted. The distance is negative if the ray goes the long way round. Reversal, turning and underside points are selected by comparing with the source depth instead of the depth of the point before: points that a ray merely passes on its way up are printed as reversals and turning points, reflections at the source depth are left out, and the source itself is printed as an underside reflection.", "quantifier": "all arrivals with any number of pierce points and every combination of the four selections; exact reals", "why_tests_cant": "The selection depends on the whole sequence of depths; the project has no test of the printed pierce points.", "anchors": ["taupy/TauP_Pierce.py:TauP_Pierce.printResult", "taupy/TauP_Pierce.py:TauP_Pierce.getCommentLine"]}
{"id": "C62", "title": "Added depths become branch boundaries and pierce points, and nothing else changes", "statement": "A run for pierce points or paths without added depths finds exactly the arrivals of a run for travel times with the same arguments. With added depths the corrected model has a branch boundary at each of them and at the source depth (up to a millimetre per depth), keeps all branch bottoms it had and gets no others; the original model keeps its branches, ray parameters and depths. A ray that passes a branch has a pierce point at its far end, with the time and distance there. The corrected model of the last run is used again exactly if the source depth is the same and all added depths are the top of the model.", "quantifier": "all tau models with decreasing ray parameters, all lists of added depths of any length, all source depths, states of the object left by earlier runs, phases and distances; any arithmetic for the first and last part, exact reals for the others", "why_tests_cant": "Each added depth splits a branch of a model that was already split; the order and closeness of depths gives unboundedly many cases, and the project has no test with added depths.", "anchors": ["taupy/TauP_Pierce.py:TauP_Pierce.depthCorrect", "taupy/TauP_Pierce.py:TauP_Pierce.calculate", "taupy/TauP_Pierce.py:TauP_Pierce.calcPierce", "taupy/TauP_Path.py:TauP_Path.calculate", "taupy/TauModel.py:TauModel.splitBranch", "taupy/TauModel.py:TauModel.depthCorrect"]}
{"id": "C63", "title": "What the options of the command line do", "statement": "Reading the command line sets the list of phases (the text split at commas), the model name, the depth and the distance exactly if the option is given with a text, and keeps them otherwise; the loaded model is kept. It fails, with ValueError, exactly if the text of a numeric option is no number. The command then prints exactly what get_travel_times prints for these values, up to the model name in the headline, and fails exactly when it fails; without phases only the empty table is printed. Several promises of the help texts and comments are false: -mod changes only the printed name, not the model used; -km alone gives no answer; -o redirects nothing; coordinates set before are overwritten with None; and an object that has answered one question ignores the coordinates of later ones.", "quantifier": "all option texts, meanings of float(), tools, models, phase lists, depths, distances and coordinates; any arithmetic", "why_tests_cant": "Options combine freely with the state of the object, which keeps values of earlier runs; the project has no test of the command line.", "anchors": ["taupy/TauP_Time.py:TauP_Time.readcmdLineArgs", "taupy/TauP_Time.py:TauP_Time.run", "taupy/TauP_Time.py:TauP_Time.__init__"]}
{"id": "C64", "title": "Which source depths are accepted", "statement": "For a constructed model of a planet of radius 6371 km, a correction for a source deeper than the radius raises TauModelError and one for a negative depth SlownessModelError. A source at a branch boundary is always accepted and leaves the model unchanged. A source at a depth where layers of both wave types meet, or inside layers whose pieces after the cut are again treated by exact formulas of the code, is accepted: no lookup, no check of a branch against its sum or its parts, and no loop of the correction fails, and the corrected model has the source depth asked for and can be used for ray tracing. A model corrected for a buried source is refused for any second correction.", "quantifier": "all velocity models with layers of positive thickness, all constructor arguments, all depths as described, any number of steps beyond twice the number of layers plus four; exact reals", "why_tests_cant": "The correction passes dozens of internal checks that depend on the position of the source relative to every layer of both wave types; tests use a handful of depths.", "anchors": ["taupy/TauModel.py:TauModel.depthCorrect", "taupy/TauModel.py:TauModel.splitBranch", "taupy/TauModel.py:TauModel.findBranch", "taupy/TauBranch.py:TauBranch.createBranch", "taupy/TauBranch.py:TauBranch.difference", "taupy/SlownessModel.py:SlownessModel.splitLayer"]}
{"id": "C65", "title": "The samples of P and S agree", "statement": "In a constructed slowness model no P layer passes through a slowness that is the top or bottom of an S layer without having it as its own top or bottom: such a slowness is sampled for P as well, or lies above or below all P slownesses. In particular no P layer has a ray parameter of the tau model strictly inside it, which is what the summation of times along a branch relies on.", "quantifier": "all velocity models and constructor arguments for which the construction succeeds, any number of layers and of refinement steps; exact reals", "why_tests_cant": "The samples come from six passes that cut lists of layers while walking over them; a missed sample shows only for a particular combination of layers.", "anchors": ["taupy/SlownessModel.py:SlownessModel.coarseSample", "taupy/SlownessModel.py:SlownessModel.addSlowness", "taupy/SlownessModel.py:SlownessModel.rayParamIncCheck", "taupy/SlownessModel.py:SlownessModel.depthIncCheck", "taupy/SlownessModel.py:SlownessModel.distanceCheck", "taupy/TauModel.py:TauModel.calcTauIncFrom"]}
{"id": "C66", "title": "When a tau model can be computed from a slowness model", "statement": "Let a slowness model have its layers from surface to centre without gaps, its critical depths at layer boundaries, only regular layers, a slowness that runs one way between critical depths, and no P layer passing through an S sample. Then TauModel(sMod) succeeds if and only if there is no S layer in which the slowness, having risen, falls from above to below the least slowness sampled in the layers above it. Models built by SlownessModel from a velocity model are of this kind, and if in addition their S slowness never rises with depth, TauModel always succeeds.", "quantifier": "all slowness models of the kind described, all velocity models and constructor arguments for which the construction succeeds, any numbers of layers, critical depths and ray parameters; exact reals", "why_tests_cant": "Each stored time is the sum over layers for one ray parameter in one branch, and a single ray parameter strictly inside one layer of any branch aborts the whole construction; tests use a few earth models for which this does not happen.", "anchors": ["taupy/TauModel.py:TauModel.__init__", "taupy/TauModel.py:TauModel.calcTauIncFrom", "taupy/TauBranch.py:TauBranch.createBranch", "taupy/TauBranch.py:TauBranch.calcTimeDist", "taupy/SlownessModel.py:SlownessModel.layerTimeDist", "taupy/SlownessModel.py:SlownessModel.getMinRayParam"]}
{"id": "C67", "title": "Slowness rises only near high slowness zones", "statement": "In a slowness model constructed from a velocity model, every layer in which the slowness rises with depth is part of a range of depths, within one velocity layer, of which an end lies in a high slowness zone of the same wave type. So the slowness of a velocity layer that no zone meets is not larger at its bottom than at its top, at a boundary in no zone the slowness does not jump up, a model without zones has slownesses that never rise, and a tau model can be computed from it if its layers are regular. If the search for critical points finds no zone where the slowness rises, for example when it rises directly below the surface, no slowness model is constructed, whatever the other arguments are.", "quantifier": "all velocity models with layers of positive thickness and radius 6371 km, all constructor arguments, both wave types, any number of layers and of repetitions in the distance check; exact reals", "why_tests_cant": "It follows from the distance check refusing rays that do not pass, after any number of insertions and steps back; tests construct standard earth models, in which the slowness falls below the surface.", "anchors": ["taupy/SlownessModel.py:SlownessModel.distanceCheck", "taupy/SlownessModel.py:SlownessModel.approxDistance", "taupy/SlownessModel.py:SlownessModel.layerTimeDist", "taupy/SlownessModel.py:SlownessModel.depthInHighSlowness", "taupy/SlownessModel.py:SlownessModel.findCriticalPoints", "taupy/SlownessModel.py:SlownessModel.createSample"]}
{"id": "C68", "title": "Queries come to an end, and step limits do not matter", "statement": "Every loop of the code without a built-in limit is modelled with a number of allowed steps. An outcome other than too few steps is the same for every larger number, for the construction of slowness and tau models, correction for a source depth, travel times, pierce points, ray paths and repeated runs. Over the reals, computing a tau model from a constructed slowness model always ends in a result or an exception, and so does every query of it, for all phase names, distances and coordinates, for a source at the surface, outside the planet, at an end of a branch, or inside layers of both wave types whose slowness there is met by at most one layer of the other type. Pierce points end for every phase and distance, ray paths whenever the layers of the model meet. A query on any object ends if the correction for its depth ends.", "quantifier": "all velocity models, constructor arguments, phase lists, distances, coordinates, histories of the object and numbers of steps; first part for any numbers including doubles, second part exact reals", "why_tests_cant": "Tests see only the inputs for which the bisection, the folding of distances and the cache search end; that no input makes them run forever cannot be observed.", "anchors": ["taupy/SlownessModel.py:SlownessModel.layerNumForDepth", "taupy/SlownessModel.py:SlownessModel.splitLayer", "taupy/TauModel.py:TauModel.depthCorrect", "taupy/TauModel.py:TauModel.calcTauIncFrom", "taupy/TauP_Time.py:TauP_Time.run", "taupy/TauP_Time.py:TauP_Time.recalcPhases", "taupy/SeismicPhase.py:SeismicPhase.calcTime", "taupy/SeismicPhase.py:SeismicPhase.calcPierce", "taupy/SeismicPhase.py:SeismicPhase.calcPath"]}
{"id": "C69", "title": "Adding a slowness sample to a branch, and subtracting branches", "statement": "TauBranch.insert(rayParam, sMod, index) succeeds exactly if the branch starts and ends at layer boundaries and the layers can be summed; it then puts one value each into dist, time and tau before entry index and changes nothing else. The value is the sum over the layers from the surface (not from the top of the branch) down to the bottom of the branch or to the first layer whose lower slowness is less than the ray parameter. So for a branch that starts at the surface it is what createBranch stores for that ray, and for a deeper branch it is too large by what the ray collects in all layers above it. TauBranch.difference gives with no new P sample the plain difference of the arrays, whatever indexS is; with one new sample distances without an entry for it, and times and taus that end with it; with a new S sample before a new P sample arrays with two more entries, in which the values for the P sample stand one place after its ray parameter. The expectation that the result equals what createBranch stores for the lower part is refuted for each of the last two.", "quantifier": "all slowness models whose layers meet, branches, ray parameters, positions and numbers of entries; for real numbers and non-NaN doubles, the comparison with createBranch for exact reals", "why_tests_cant": "depthCorrect never gets to insert a sample because its search compares in the wrong order (C28), so no test through the interface runs this code.", "anchors": ["taupy/TauBranch.py:TauBranch.insert", "taupy/TauBranch.py:TauBranch.shiftBranch", "taupy/TauBranch.py:TauBranch.difference", "taupy/TauBranch.py:TauBranch.calcTimeDist"]}
{"id": "C70", "title": "Discontinuities are the depths at which velocities jump", "statement": "getDisconDepths fails with IndexError for a model without layers and otherwise lists, in order of depth and once each, exactly the top of the model, every depth at which evaluateAbove and evaluateBelow give different P velocities or different S velocities, and the bottom of the model. The depths fixDisconDepths chooses for moho, core and inner core are in that list unless it falls back on the surface or on the radius. Where the P velocity jumps, or the S velocity between solids while S waves are allowed in the inner core, findCriticalPoints makes a critical depth.", "quantifier": "all velocity models with layers of positive thickness that meet; all depths; exact reals, the first part for any numbers", "why_tests_cant": "The only test of the list compares it with the printed list of one model; the equivalence with jumps of evaluated velocities quantifies over all depths.", "anchors": ["taupy/VelocityModel.py:VelocityModel.getDisconDepths", "taupy/VelocityModel.py:VelocityModel.evaluateAbove", "taupy/VelocityModel.py:VelocityModel.evaluateBelow", "taupy/VelocityModel.py:VelocityModel.fixDisconDepths", "taupy/SlownessModel.py:SlownessModel.findCriticalPoints"]}
{"id": "C71", "title": "The distance check leaves a model alone exactly if it meets the limits", "statement": "approxDistance(n - 1, p) is twice the sum of the time and distance increments of the ray p over the first n layers. If for every layer of both wave types that touches no high slowness zone the rays of its two ends arrive within maxRangeInterval of each other, or their ray parameters differ by at most twice minDeltaP, and the time of the second is within maxInterpError of the line through the first and the ray midway in ray parameter, then distanceCheck returns the model unchanged. If it returns another model, that has more layers. If it returns the same model and the slowness changes within every layer outside the zones, then every such P layer meets the limits, and every such S layer too if there is no fluid and S waves are allowed in the inner core.", "quantifier": "all slowness models in which each layer starts with the slowness the one above ends with; all limits, numbers of layers and loop bounds; exact reals", "why_tests_cant": "The check adds samples and steps back while it runs, so when it stops depends on the history; tests only look at the number of layers of standard models.", "anchors": ["taupy/SlownessModel.py:SlownessModel.distanceCheck", "taupy/SlownessModel.py:SlownessModel.approxDistance", "taupy/SlownessModel.py:SlownessModel.addSlowness", "taupy/SlownessModel.py:SlownessModel.depthInHighSlowness"]}
{"id": "C72", "title": "What the slowness and thickness checks ask for, and which models they leave alone", "statement": "For each layer wider than maxDeltaP rayParamIncCheck asks for the slownesses topP + k (topP - botP) / n, 0 < k < n, where n is the least number of steps of maxDeltaP that cover the layer; for each layer thicker than maxDepthInterval depthIncCheck asks for the slownesses at the depths topDepth + k (botDepth - topDepth) / n, of the velocity above that depth, that of P where there are no S waves. If no slowness asked for lies strictly inside a layer of either wave type, the check returns the model unchanged. If the check returns the same model, no slowness asked for lies strictly inside a P layer, nor inside an S layer if there is no fluid and S waves are allowed in the inner core. A check that returns another model has added layers.", "quantifier": "all slowness models, all positive limits, all loop bounds above the number of layers; exact reals", "why_tests_cant": "The loops run over lists that grow while iterated; tests only look at the number of layers of standard models.", "anchors": ["taupy/SlownessModel.py:SlownessModel.rayParamIncCheck", "taupy/SlownessModel.py:SlownessModel.depthIncCheck", "taupy/SlownessModel.py:SlownessModel.addSlowness"]}
{"id": "C73", "title": "Waves of constant velocity travel along straight lines", "statement": "If a wave type has the same velocity v everywhere, what each branch stores for ray parameter p is the part between its two depths of the straight line at distance p v from the centre: the angle seen from the centre and the length divided by v. A sample of a phase that goes down and up again and whose ray turns above the lowest depth of its legs has the travel time of the chord between the two ends. The time that calcTime returns for such a phase is never later than the chord at that distance takes, and earlier by at most (p0 - p1)(d1 - d0)/4 for the two samples that are interpolated. Models that the constructors make from a velocity model with one velocity meet the conditions, and there no ray that may turn in a branch reaches below it.", "quantifier": "all slowness and tau models with one velocity, radii, velocities, ray parameters, distances; exact reals", "why_tests_cant": "Tests compare with tables for realistic planets, computed by the same formulas; an analytic solution for all rays and samplings is never compared.", "anchors": ["taupy/SlownessLayer.py:bullenRadialSlowness", "taupy/TauBranch.py:TauBranch.calcTimeDist", "taupy/SeismicPhase.py:SeismicPhase.sumBranches", "taupy/SeismicPhase.py:SeismicPhase.calcTime", "taupy/TauModel.py:TauModel.calcTauIncFrom"]}
{"id": "C74", "title": "Reflected waves of constant velocity go straight to the reflector and back", "statement": "If a wave type has the same velocity v everywhere, a sample of a phase that goes down and up again and whose ray parameter p has p v no larger than the radius of the lowest depth of its legs has twice the travel time of the straight way between the surface and that sphere at half its distance. The time that calcTime returns for such a phase is never earlier than that way takes at the distance of the arrival, and later by at most (p0 - p1)(d0 - d1)/4 for the two samples that are interpolated. In models that the constructors make from a velocity model with one velocity, the limit between rays that turn in a branch and rays that are reflected at its bottom is exactly the radius of the bottom divided by v.", "quantifier": "all slowness and tau models with one velocity, radii, velocities, ray parameters, distances; exact reals", "why_tests_cant": "Tests compare a few times for realistic planets; neither the geometry nor the sign and size of the interpolation error is tested.", "anchors": ["taupy/SlownessLayer.py:bullenRadialSlowness", "taupy/TauBranch.py:TauBranch.calcTimeDist", "taupy/TauBranch.py:TauBranch.createBranch", "taupy/SeismicPhase.py:SeismicPhase.sumBranches", "taupy/SeismicPhase.py:SeismicPhase.calcTime"]}
{"id": "C75", "title": "With one velocity no phase is faster than the straight line", "statement": "If a wave type has the same velocity v everywhere, legs of that type, each starting where the one before it ends, take at least as long as the straight way between their ends, whatever the number of reflections. Hence each sample of a phase with such legs from the surface to the surface has a time of at least the chord at its distance divided by v, also for distances beyond 180 degrees; and the time that calcTime returns for such a phase is less than that of the chord by at most (radius / v) times half the difference of the distances of the two samples that are interpolated. The standard phases without diffracted, head and crustal legs whose legs are all of one type are such phases for a source at the surface.", "quantifier": "all slowness and tau models with one velocity, all phases of one wave type from the surface, ray parameters, distances; exact reals", "why_tests_cant": "A lower bound for all phases, any number of legs and all samplings; tests compare single times of a few phases.", "anchors": ["taupy/SeismicPhase.py:SeismicPhase.parseName", "taupy/SeismicPhase.py:SeismicPhase.sumBranches", "taupy/SeismicPhase.py:SeismicPhase.calcTime", "taupy/TauBranch.py:TauBranch.calcTimeDist"]}
{"id": "C76", "title": "With one velocity a phase has one arrival at each distance it covers", "statement": "The minimum and maximum distance recorded by a phase without high slowness zone in its range are those of its samples. A phase whose sampled distances only grow or only shrink and stay within half the circle has exactly one arrival from calcTime at each distance other than 0 that lies between them, at exactly that distance, and no arrival at any other distance. If a wave type has the same velocity everywhere, phases that go down through the uppermost branches and up again are such phases: the distances grow with steepness if all rays turn on the way down, and shrink if all are reflected at the bottom; so there are no triplications, no shadow and no doubled arrivals.", "quantifier": "all phases with monotone distances, all slowness and tau models with one velocity, all distances; exact reals", "why_tests_cant": "Exactly one arrival for every distance and every sampling; tests count the arrivals at single distances.", "anchors": ["taupy/SeismicPhase.py:SeismicPhase.calcTime", "taupy/SeismicPhase.py:SeismicPhase.sumBranches", "taupy/TauBranch.py:TauBranch.calcTimeDist"]}
{"id": "C77", "title": "The purist name is the name with the depths that are used", "statement": "The purist name of a constructed phase consists of the legs of its name in order, unchanged except that each leg that is a digit is replaced by the depth of the nearest branch top that is not in the list of source depths (that of the last branch if no branch top qualifies). So a name without digits is its own purist name; and every arrival carries the name and the purist name of its phase.", "quantifier": "all phase names, tau models, lists of source depths; names: any number type; depths: any ordered number type; arrivals: exact reals", "why_tests_cant": "Every name and every model; tests look at a few names without depths.", "anchors": ["taupy/SeismicPhase.py:SeismicPhase.createPuristName", "taupy/SeismicPhase.py:closestBranchToDepth", "taupy/SeismicPhase.py:SeismicPhase.linearInterpArrival"]}
{"id": "C78", "title": "No ray of a phase goes beyond its recorded maximum distance", "statement": "In a model made by the constructor no branch stores a negative distance or time. So every distance on the curve of a constructed phase is at least 0 and at most the recorded maximum distance, and no time is negative, although the maximum is taken before high slowness zones add points to the curve. Hence, with or without such zones, the arrivals that calcTime reports are exactly the places where the curve passes the distance asked for.", "quantifier": "all models with decreasing ray parameters, all phases that are neither diffracted nor head waves, whose zones in range are of one wave type and have decreasing ray parameters; all distances; exact reals", "why_tests_cant": "Every model with zones; tests use earth models with at most one zone in range.", "anchors": ["taupy/SeismicPhase.py:SeismicPhase.sumBranches", "taupy/SeismicPhase.py:SeismicPhase.calcTime", "taupy/TauBranch.py:TauBranch.createBranch", "taupy/SlownessModel.py:SlownessModel.layerTimeDist"]}
{"id": "C79", "title": "Arrivals of diffracted and head waves", "statement": "A diffracted phase arrives exactly at the distances from that of the grazing ray to 60 degrees farther that equal the distance asked for up to full circles and direction; each such distance is reported once (unless it is a multiple of a full circle), with the grazing ray parameter, and with the grazing time plus ray parameter times the angle along the boundary. A head wave does the same up to 20 degrees, but its time grows by the angle itself whatever its ray parameter.", "quantifier": "all models whose branches store no negative distances, all phase names with Pdiff/Sdiff or Pn/Sn that give a phase, all distances; exact reals", "why_tests_cant": "Every model and distance, also beyond 180 degrees; tests compare a few tabulated times.", "anchors": ["taupy/SeismicPhase.py:SeismicPhase.sumBranches", "taupy/SeismicPhase.py:SeismicPhase.calcTime", "taupy/SeismicPhase.py:SeismicPhase.linearInterpArrival"]}
{"id": "C80", "title": "Order of legs does not matter, and joined legs add up", "statement": "A point of a phase's curve is the sum over the legs for the last ray parameter sample not below its ray parameter. So two phases of one model whose legs pass the same branches as the same wave types, in any order and direction (such as PS and SP for a source at the surface), have the same distance and time at the same ray parameter; and if the legs of one phase are those of two others together (PS: P and S; PP: P and P), its distance and time at a ray parameter are the sums of theirs.", "quantifier": "all models with decreasing ray parameters and as many P as S branches; all phases, neither diffracted nor head waves, without a high slowness zone in their range; exact reals", "why_tests_cant": "A relation between the results for different phase names, for every model and ray parameter; tests look at one phase at a time.", "anchors": ["taupy/SeismicPhase.py:SeismicPhase.sumBranches", "taupy/SeismicPhase.py:SeismicPhase.parseName"]}
{"id": "C81", "title": "Multiples arrive at multiples of distance and time", "statement": "If the legs of one phase are those of another one n times over (PP for P, PcPPcP for PcP, source at the surface) and both have the same ray parameters, its distances and times are n times those of the other, sample by sample. So for each of its arrivals the other phase, asked for the nth part of that arrival's distance, has an arrival with the nth part of its time and the same ray parameter.", "quantifier": "all models with decreasing ray parameters and no negative branch distances; all n > 0; all phases, neither diffracted nor head waves, without a high slowness zone in their range; all distances; exact reals", "why_tests_cant": "A relation between the answers for two phase names and two distances, for every model; tests look at one phase at a time.", "anchors": ["taupy/SeismicPhase.py:SeismicPhase.sumBranches", "taupy/SeismicPhase.py:SeismicPhase.calcTime", "taupy/SeismicPhase.py:SeismicPhase.linearInterpArrival"]}
{"id": "C82", "title": "Phase names may be cut at surface reflections", "statement": "For a source at the surface, take a phase name made of parts that each start and end at the surface (P, PcS, SKS, PKiKP, ... in any number). Putting the parts in another order (PPcS and PcSP) leaves distance and time at each ray parameter unchanged; distance and time at a ray parameter are the sums of those of the parts; and a name repeated k times has k times the distances and times, so that its arrivals are arrivals of the single phase at the kth part of the distance, with the kth part of the time and the same ray parameter.", "quantifier": "all such names, all layered models with the source at the surface, decreasing ray parameters and any number of branches; phases without head waves and without a high slowness zone in their range; exact reals", "why_tests_cant": "Relates the answers for infinitely many names to one another in every model.", "anchors": ["taupy/SeismicPhase.py:SeismicPhase.parseName", "taupy/SeismicPhase.py:SeismicPhase.sumBranches", "taupy/SeismicPhase.py:SeismicPhase.calcTime", "taupy/SeismicPhase.py:legPuller"]}
{"id": "C83", "title": "What a surface reflection adds does not depend on the way to it", "statement": "For a source in the crust or mantle, appending to a phase name a part that starts and ends at the surface (P, PcS, SKS, ...) adds a distance and a time that depend, at each ray parameter, only on the part: PP minus P equals pPP minus pP. The parts after the first surface reflection may come in any order without changing distance and time at a ray parameter.", "quantifier": "all phase names built from standard legs, all layered models with the source above the core and any number of branches; phases that are neither diffracted nor head waves, without a high slowness zone in their range; exact reals", "why_tests_cant": "Relates the answers for infinitely many names to one another in every model and for every source depth.", "anchors": ["taupy/SeismicPhase.py:SeismicPhase.parseName", "taupy/SeismicPhase.py:SeismicPhase.sumBranches", "taupy/SeismicPhase.py:legPuller"]}
{"id": "C84", "title": "A depth phase is later than its direct phase by the two upgoing rays", "statement": "For a source in the crust or mantle, at each ray parameter the distance and time of a depth phase (pP, sP, pPKP, sScS, ...) are those of its direct phase plus those of the two upgoing rays to the surface: the one named by the first letter and the one of the wave type of the first downgoing leg. So pP - P is twice p, and sP - P is s plus p.", "quantifier": "all direct phase names built from standard legs whose first leg is a mantle P or S, both upgoing legs, all layered models with the source above the core and any number of branches; phases that are neither diffracted nor head waves, without a high slowness zone in their range; exact reals", "why_tests_cant": "Relates the answers for infinitely many names to one another in every model and for every source depth.", "anchors": ["taupy/SeismicPhase.py:SeismicPhase.parseName", "taupy/SeismicPhase.py:SeismicPhase.sumBranches", "taupy/SeismicPhase.py:legPuller"]}
