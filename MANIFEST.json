{
 "claims": [
  {
   "property": "C01",
   "status": "proved",
   "theorems": [
    "C01_tokenize_exact",
    "C01_tokenize_total",
    "C01_tokenize_lossless"
   ],
   "note": "No axioms. Exact grammar as an inductive relation."
  },
  {
   "property": "C02",
   "status": "proved",
   "theorems": [
    "C02_leg_shapes",
    "C02_documented_split_refuted"
   ],
   "note": "No axioms. The documented split is refuted; the statement describes what the code does."
  },
  {
   "property": "C03",
   "status": "proved",
   "theorems": [
    "C03_reflection_names_raise",
    "C03_error_escapes"
   ],
   "note": "No axioms, any arithmetic. Names ending in kmps are covered by C42."
  },
  {
   "property": "C04",
   "status": "proved",
   "theorems": [
    "C04_phase_list_exact",
    "C04_phase_list_as_set",
    "C04_groups_nested"
   ],
   "note": "No axioms. set() iteration order is an arbitrary function that enumerates each element once."
  },
  {
   "property": "C05",
   "status": "proved",
   "theorems": [
    "C05_sorted_complete"
   ],
   "note": "No axioms; order laws only (sortedness for NaN-free times). The phases are those that build for the requested names, in the set's order."
  },
  {
   "property": "C06",
   "status": "proved",
   "theorems": [
    "C06_arrival_distance",
    "C06_folded_unique",
    "C06_get_travel_times"
   ],
   "note": "Exact reals."
  },
  {
   "property": "C07",
   "status": "proved",
   "theorems": [
    "C07_no_arrival_invented",
    "C07_no_arrival_missed",
    "C07_exact",
    "C07_reported_once",
    "C07_zero_distance_twice"
   ],
   "note": "Exact reals. At a distance equivalent to 0 degrees rays that went round are listed twice (theorem C07_zero_distance_twice)."
  },
  {
   "property": "C08",
   "status": "proved",
   "theorems": [
    "C08_interpolation",
    "C08_at_samples",
    "C08_continuous",
    "C08_flat_end_raises"
   ],
   "note": "Exact reals."
  },
  {
   "property": "C09",
   "status": "proved",
   "theorems": [
    "C09_folding_terminates",
    "C09_calcTime_terminates",
    "C09_doubles_refuted"
   ],
   "note": "Termination over the reals for every request; for doubles the request 1e300 loops forever (all iteration counts)."
  },
  {
   "property": "C10",
   "status": "proved",
   "theorems": [
    "C10_layer_below_iff",
    "C10_layer_above_iff",
    "C10_below_defined",
    "C10_above_defined",
    "C10_otherwise_raises",
    "C10_on_boundary"
   ],
   "note": "No axioms; order laws only, so both for reals and for IEEE doubles."
  },
  {
   "property": "C11",
   "status": "proved",
   "theorems": [
    "C11_below_is_line",
    "C11_above_is_line",
    "C11_line_between_and_at_ends",
    "C11_sides_agree",
    "C11_otherwise_raises",
    "C11_known_properties",
    "C11_layer_ends"
   ],
   "note": "Exact reals (axioms of Coq's Reals only)."
  },
  {
   "property": "C12",
   "status": "proved",
   "theorems": [
    "C12_validate_iff",
    "C12_increasing_depth_refuted"
   ],
   "note": "No axioms; order laws only (NaN-free models). The refutation witness is a double model."
  },
  {
   "property": "C13",
   "status": "proved",
   "theorems": [
    "C13_read_iff",
    "C13_layers_contiguous",
    "C13_rejects_iff"
   ],
   "note": "No axioms. Python's float() is a parameter; contiguity assumes it never returns NaN (the string 'nan')."
  },
  {
   "property": "C14",
   "status": "proved",
   "theorems": [
    "C14_nearest_discontinuities",
    "C14_rest_unchanged"
   ],
   "note": "No axioms; order laws only."
  },
  {
   "property": "C15",
   "status": "proved",
   "theorems": [
    "C15_ray_integrals",
    "C15_degenerate"
   ],
   "note": "Exact reals (stdlib Reals axioms, classic)."
  },
  {
   "property": "C16",
   "status": "proved",
   "theorems": [
    "C16_slope"
   ],
   "note": "Exact reals (stdlib Reals axioms, classic)."
  },
  {
   "property": "C17",
   "status": "proved",
   "theorems": [
    "C17_split_additive"
   ],
   "note": "Exact reals; both parts at least 1e-9 km thick (the code returns zero for thinner ones)."
  },
  {
   "property": "C18",
   "status": "proved",
   "theorems": [
    "C18_inverse",
    "C18_out_of_range"
   ],
   "note": "Exact reals; layer top not above the surface. For doubles the linear fallback of bullenDepthFor can leave the layer."
  },
  {
   "property": "C19",
   "status": "proved",
   "theorems": [
    "C19_straight_ray",
    "C19_centre"
   ],
   "note": "Exact reals; shell thicker than the tolerance (rt^2 - rb^2 >= slowness_tolerance)."
  },
  {
   "property": "C20",
   "status": "proved",
   "theorems": [
    "C20_search_exact",
    "C20_search_terminates",
    "C20_search_outside",
    "C20_gap_diverges_refuted"
   ],
   "note": "Any arithmetic satisfying the order laws (reals and doubles). The last theorem is the counterexample on a list with a gap."
  },
  {
   "property": "C21",
   "status": "proved",
   "theorems": [
    "C21_what_changes",
    "C21_stays_gap_free",
    "C21_sampled_afterwards",
    "C21_terminates",
    "C21_constructed_models"
   ],
   "note": "Layers are objects with identities (ids_ok), which constructed models satisfy."
  },
  {
   "property": "C22",
   "status": "proved",
   "theorems": [
    "C22_insertion_stays_on_model",
    "C22_cut_is_inside",
    "C22_constructed_on_model"
   ],
   "note": "Exact reals; velocity layers of positive thickness and (for constructed models) radius 6371, see C46."
  },
  {
   "property": "C23",
   "status": "proved",
   "theorems": [
    "C23_validate_exact",
    "C23_constructed_valid"
   ],
   "note": "The radius, depth interval and zone limits are assumed not to be NaN."
  },
  {
   "property": "C24",
   "status": "proved",
   "theorems": [
    "C24_ray_parameters"
   ],
   "note": "Order laws only, no axioms; the slownesses are assumed not to be NaN."
  },
  {
   "property": "C25",
   "status": "proved",
   "theorems": [
    "C25_branches_tile",
    "C25_branches_tile_exact",
    "C25_same_ends",
    "C25_branch_depths"
   ],
   "note": "Order laws (reals and doubles); the reals version needs only velocity layers of positive thickness."
  },
  {
   "property": "C26",
   "status": "proved",
   "theorems": [
    "C26_nearest_branches"
   ],
   "note": "Order laws only, no axioms."
  },
  {
   "property": "C27",
   "status": "proved",
   "theorems": [
    "C27_depth_correction",
    "C27_constructed_models"
   ],
   "note": "Order laws; 'adds up' over the reals. The depth is not within 1 mm of a layer boundary other than itself (see C43 for what happens there)."
  },
  {
   "property": "C28",
   "status": "proved",
   "theorems": [
    "C28_source_slowness_sampled_refuted"
   ],
   "note": "Order laws only, no axioms. Refutation of the documented behaviour."
  },
  {
   "property": "C29",
   "status": "proved",
   "theorems": [
    "C29_lookup_exact",
    "C29_centre_refuted"
   ],
   "note": "Order laws only, no axioms."
  },
  {
   "property": "C30",
   "status": "proved",
   "theorems": [
    "C30_model_kept",
    "C30_history_irrelevant",
    "C30_calm",
    "C30_near_boundary_refuted",
    "C30_other_model_refuted"
   ],
   "note": "Order laws only, no axioms. 'calm' depths: C30_calm reduces it to layer boundaries being apart. State after a raised exception is not modelled. The last theorem is a counterexample with two constructed double models."
  },
  {
   "property": "C31",
   "status": "proved",
   "theorems": [
    "C31_discontinuities"
   ],
   "note": "Order laws only, no axioms; distances assumed not NaN. Legs from the tokenizer hold at most one digit (C02)."
  },
  {
   "property": "C32",
   "status": "proved",
   "theorems": [
    "C32_sequence",
    "C32_accepted",
    "C32_default",
    "C32_named"
   ],
   "note": "C32_sequence and the others are law-free: they hold for any arithmetic. The grammar of textbook names is unbounded and contains every name of the default list."
  },
  {
   "property": "C33",
   "status": "proved",
   "theorems": [
    "C33_sum_of_legs",
    "C33_sum_of_legs_no_zone",
    "C33_zone_points",
    "C33_second_wave_type_refuted"
   ],
   "note": "Exact reals. Ordinary phases (no Pdiff, Sdiff, Pn, Sn in the name, see C34); the model has as many S as P branches and a sample not below the phase's maximum ray parameter. With zones of both wave types the zone points are refuted."
  },
  {
   "property": "C34",
   "status": "proved",
   "theorems": [
    "C34_diffracted",
    "C34_head_wave_refuted"
   ],
   "note": "Exact reals. Holds for diffracted waves, for head waves refuted whenever the ray parameter is not 1 s/rad."
  },
  {
   "property": "C35",
   "status": "proved",
   "theorems": [
    "C35_points",
    "C35_arrivals",
    "C35_never_back",
    "C35_totals",
    "C35_constructed",
    "C35_last_sample_refuted",
    "C35_zone_refuted",
    "C35_boundary_waves",
    "C35_defined"
   ],
   "note": "Exact reals; ray parameters strictly decreasing (C24). C35_never_back asks for non-negative stored times and distances. C35_constructed excludes high slowness zones and the phase's last ray, for which the refutations apply. For head waves the time along the boundary is ray parameter times angle here but the angle itself in the arrival (C34)."
  },
  {
   "property": "C36",
   "status": "proved",
   "theorems": [
    "C36_leg",
    "C36_depths",
    "C36_retraced",
    "C36_path",
    "C36_never_back",
    "C36_end",
    "C36_sampled_arrival",
    "C36_diffracted",
    "C36_diffracted_twice_refuted",
    "C36_head_wave_refuted"
   ],
   "note": "C36_leg is an exact characterisation for any arithmetic with order laws, C36_path for exact reals. The theorems on end points ask that layers meet, that slowness is strictly monotone within each branch and that the stored samples are sums over the layers crossed (all_rays, as built by C25/C27). Arrivals between samples have interpolated times while the path integrates the layers, so no equality is claimed there."
  },
  {
   "property": "C37",
   "status": "proved",
   "theorems": [
    "C37_snell",
    "C37_surface_waves",
    "C37_sign",
    "C37_textbook",
    "C37_defined"
   ],
   "note": "Exact reals; velocity layers contiguous and of positive thickness, source above the centre. C37_sign asks for positive speeds and ray parameter. C37_textbook ties the letters used by the code to the first and last crossing of the ray. C37_defined shows when no exception is raised."
  },
  {
   "property": "C38",
   "status": "proved",
   "theorems": [
    "C38_angle",
    "C38_metric",
    "C38_shift",
    "C38_query"
   ],
   "note": "Exact reals for the distance (stdlib Reals axioms, classic); C38_query is law-free and closed."
  },
  {
   "property": "C39",
   "status": "proved",
   "theorems": [
    "C39_reuse",
    "C39_empty_list_refuted"
   ],
   "note": "Order laws only, no axioms. Source depths that are equal must be identical (excludes mixing 0.0 and -0.0)."
  },
  {
   "property": "C40",
   "status": "proved",
   "theorems": [
    "C40_load",
    "C40_directory_ignored"
   ],
   "note": "No axioms. The file system is a map from paths to contents; unpickling is the identity."
  },
  {
   "property": "C41",
   "status": "proved",
   "theorems": [
    "C41_unreachable_refuted",
    "C41_constructor_refuted"
   ],
   "note": "No axioms. Attribute reads and argument binding only; everything after them is universally quantified."
  },
  {
   "property": "C42",
   "status": "proved",
   "theorems": [
    "C42_kmps_construction_raises",
    "C42_kmps_no_result"
   ],
   "note": "No axioms, any arithmetic (Python 3 semantics)."
  },
  {
   "property": "C43",
   "status": "proved",
   "theorems": [
    "C43_split_exact",
    "C43_other_wave_type",
    "C43_critical_depths",
    "C43_moved_boundary",
    "C43_close_boundary_refuted",
    "C43_surface_refuted"
   ],
   "note": "Order laws only (reals and doubles), no axioms. The refuted theorems describe the overwriting within 1 mm of a boundary and of the surface."
  },
  {
   "property": "C44",
   "status": "proved",
   "theorems": [
    "C44_critical_depths_exact",
    "C44_surface_once",
    "C44_fluid_zones_exact"
   ],
   "note": "Any arithmetic; over the reals the surface is never listed twice."
  },
  {
   "property": "C45",
   "status": "proved",
   "theorems": [
    "C45_depth_limit",
    "C45_constructed_depth_limit",
    "C45_boundaries_kept",
    "C45_too_wide_stays_refuted",
    "C45_ray_param_limit_refuted"
   ],
   "note": "Exact reals for the limits, any ordered arithmetic for the kept boundaries. Layers of a velocity layer with constant slowness are excepted. Termination of the loops is not claimed."
  },
  {
   "property": "C46",
   "status": "proved",
   "theorems": [
    "C46_own_radius_refuted"
   ],
   "note": "Exact reals: the documented behaviour fails for every successfully constructed model whose radius is not 6371; witness in C46_ex."
  },
  {
   "property": "C47",
   "status": "proved",
   "theorems": [
    "C47_other_layers_refuted",
    "C47_critical_numbers_refuted"
   ],
   "note": "Witnesses are a constructed double model (Toy.v)."
  },
  {
   "property": "C48",
   "status": "proved",
   "theorems": [
    "C48_same_way",
    "C48_steady_branches",
    "C48_rays_ready"
   ],
   "note": "Exact reals. Asks that no layer has the same slowness at top and bottom (a change of direction next to such a layer is not detected by the code) and, without S waves in the inner core, that the layer above the inner core is fluid. C48_rays_ready discharges the hypotheses of C36 for models with a surface source."
  },
  {
   "property": "C49",
   "status": "proved",
   "theorems": [
    "C49_continuous",
    "C49_constructed"
   ],
   "note": "Exact reals; layers of positive thickness."
  },
  {
   "property": "C50",
   "status": "proved",
   "theorems": [
    "C50_sound",
    "C50_between",
    "C50_found"
   ],
   "note": "Exact reals; layers of positive thickness. C50_found asks for a positive tolerance and, for S waves, no fluid in between."
  },
  {
   "property": "C51",
   "status": "proved",
   "theorems": [
    "C51_zones",
    "C51_constructed",
    "C51_blocked",
    "C51_surface_refuted",
    "C51_flat_refuted"
   ],
   "note": "Exact reals. The two refutations show zones that the code does not find when the first layer has rising slowness or a layer has constant slowness."
  },
  {
   "property": "C52",
   "status": "proved",
   "theorems": [
    "C52_turn_limit",
    "C52_ray_limit",
    "C52_zone_floor",
    "C52_greatest",
    "C52_falling",
    "C52_least",
    "C52_handover"
   ],
   "note": "C52_turn_limit and C52_ray_limit by order laws, the others exact reals. C52_zone_floor and C52_handover ask for slowness falling in the first layer, since the search in a zone does not look at the slowness at the surface."
  },
  {
   "property": "C53",
   "status": "proved",
   "theorems": [
    "C53_edge_source",
    "C53_sampled_source",
    "C53_greatest"
   ],
   "note": "Exact reals. Sources strictly inside a layer are the subject of C57. C53_ex carries out the whole construction and the correction for a ball in two layers."
  },
  {
   "property": "C54",
   "status": "proved",
   "theorems": [
    "C54_written",
    "C54_build_load",
    "C54_build_errors",
    "C54_parameters",
    "C54_no_directory_refuted",
    "C54_dotted_name_refuted",
    "C54_interface_refuted"
   ],
   "note": "Law-free except C54_parameters (exact reals). A pickled model loads as the value that was stored; partial writes and exceptions other than OSError from the file system are not modelled. C54_ex builds a model with the default sampling and loads it under three names."
  },
  {
   "property": "C55",
   "status": "proved",
   "theorems": [
    "C55_range",
    "C55_bounds",
    "C55_named"
   ],
   "note": "Order laws only: holds for exact reals and for doubles. C55_bounds shows that the names are those of C32; the bounds refer to the limits stored with the branches, which C52 describes."
  },
  {
   "property": "C56",
   "status": "proved",
   "theorems": [
    "C56_error",
    "C56_not_early",
    "C56_ray_exists",
    "C56_constructed"
   ],
   "note": "Exact reals. Asks for layers that the code treats by one of its exact formulas (regular), for no slowness of either wave type strictly between the two samples (the code samples S slownesses only, so this can fail for P layers), and for no high slowness zone and no diffracted or head wave in the phase. C56_constructed leaves only these conditions for models made by the constructors."
  },
  {
   "property": "C57",
   "status": "proved",
   "theorems": [
    "C57_inside_source",
    "C57_greatest"
   ],
   "note": "Exact reals. Asks that the layers before and after the cut are regular (treated by exact formulas of the code, see C56) and that the slowness at the source lies inside at most one layer of the other wave type; C47_other_layers_refuted shows what goes wrong otherwise. Closer than 1 mm to a boundary the code moves the boundary instead (C43). C57_ex carries out the construction and the correction for a ball in two layers."
  },
  {
   "property": "C58",
   "status": "proved",
   "theorems": [
    "C58_accuracy",
    "C58_answered_iff",
    "C58_all_answered_refuted"
   ],
   "note": "Exact reals. C58_accuracy has the conditions of C56 and C57; the pair of samples around the slowness at the source is excluded, since the code never inserts a sample there. C58_all_answered_refuted gives a ball with a source in its upper layer where p is not answered for distances below half that of the second sample; C58_answered_ex gives the exact limit."
  },
  {
   "property": "C59",
   "status": "proved",
   "theorems": [
    "C59_number",
    "C59_number_double",
    "C59_quiet",
    "C59_fails",
    "C59_announced",
    "C59_table",
    "C59_line_double",
    "C59_heading_refuted",
    "C59_str"
   ],
   "note": "C59_quiet, C59_fails and C59_announced for any arithmetic. C59_table for exact reals: no exception is raised while printing; the words of a line are claimed for names without white space, the columns for depths to 999 km, times to 99999 s, ray parameters to 9999 s/deg, angles in 0..180 and distances to 9999 degrees. Python's float formatting is modelled as exact rounding (library code)."
  },
  {
   "property": "C60",
   "status": "proved",
   "theorems": [
    "C60_lines",
    "C60_drawing",
    "C60_paths",
    "C60_run",
    "C60_all_arrivals",
    "C60_backtracking_refuted"
   ],
   "note": "Exact reals (C60_all_arrivals: any arithmetic). The methods are modelled for an object with the attributes that the constructors would have set (the constructors always raise, C41). C60_run asks that the models of the phases are path_ready (shown for constructed models by C48 and C53) and that curves of diffracted and head waves have two points (C34). numpy.interp is taken as exact linear interpolation."
  },
  {
   "property": "C61",
   "status": "proved",
   "theorems": [
    "C61_lines",
    "C61_which",
    "C61_all",
    "C61_run",
    "C61_reversals_refuted",
    "C61_turning_points_refuted",
    "C61_underside_refuted"
   ],
   "note": "Exact reals. The selections of reversal, turning and underside points are characterised exactly and the usual meaning of these words is refuted."
  },
  {
   "property": "C62",
   "status": "proved",
   "theorems": [
    "C62_again",
    "C62_no_added_depths",
    "C62_same_arrivals",
    "C62_boundaries",
    "C62_pierce_point"
   ],
   "note": "C62_again, C62_no_added_depths and C62_same_arrivals for any arithmetic, the others for exact reals. The boundaries are those of the P branches (as in getBranchDepths); for S only the number of branches is claimed."
  },
  {
   "property": "C63",
   "status": "proved",
   "theorems": [
    "C63_read",
    "C63_read_fails",
    "C63_command",
    "C63_no_phases",
    "C63_coordinates_refuted",
    "C63_model_refuted",
    "C63_kilometres_refuted",
    "C63_outfile_refuted",
    "C63_later_coordinates_refuted"
   ],
   "note": "Any arithmetic. argparse is library code: the theorems start from the texts it delivers. The model is given to the constructor, which the code forgets (the script as written raises TypeError)."
  },
  {
   "property": "C64",
   "status": "proved",
   "theorems": [
    "C64_refused",
    "C64_once",
    "C64_edge_accepted",
    "C64_sampled_accepted",
    "C64_inside_accepted",
    "C64_inside_ready"
   ],
   "note": "Exact reals. Removes the assumption of C53 and C57 that the correction succeeds. For sources inside layers it asks as C57 does that at most one layer of the other wave type spans the slowness at the source, and that cutting leaves regular layers: a thin piece can fall under the tolerance of the constant velocity formula, which then may fail."
  },
  {
   "property": "C65",
   "status": "proved",
   "theorems": [
    "C65_compatible",
    "C65_found_or_outside",
    "C65_ray_parameters"
   ],
   "note": "Exact reals. Only the direction that the tau model needs is claimed; nothing is said about S layers and P samples."
  },
  {
   "property": "C66",
   "status": "proved",
   "theorems": [
    "C66_fails",
    "C66_exact",
    "C66_constructed",
    "C66_clear",
    "C66_never_rises"
   ],
   "note": "Exact reals. Layers must be regular as in C56: a layer so thin that the constant velocity formula falls under its tolerance may raise. Whether a constructed model can have the obstacle at all is not settled; C66_hill_ex shows a slowness model that has it."
  },
  {
   "property": "C67",
   "status": "proved",
   "theorems": [
    "C67_layers",
    "C67_no_zone",
    "C67_velocity",
    "C67_jump",
    "C67_tau",
    "C67_missed",
    "C67_never"
   ],
   "note": "Exact reals. The range of depths is the layer as it was when the distance check passed it."
  },
  {
   "property": "C68",
   "status": "proved",
   "theorems": [
    "C68_building_settled",
    "C68_query_settled",
    "C68_pierce_ends",
    "C68_path_ends",
    "C68_query_ends",
    "C68_tau_ends",
    "C68_source_ends",
    "C68_times_end"
   ],
   "note": "Settled: any numbers. Ends: exact reals; for doubles see C09_doubles_refuted. Whether the sampling of a slowness model ends is not claimed."
  },
  {
   "property": "C69",
   "status": "proved",
   "theorems": [
    "C69_insert",
    "C69_insert_excess",
    "C69_insert_surface",
    "C69_deeper_refuted",
    "C69_difference_no_P",
    "C69_difference_one",
    "C69_difference_two",
    "C69_one_refuted",
    "C69_two_refuted"
   ],
   "note": "C69_insert_excess and C69_insert_surface: exact reals; the others any ordered numbers including doubles. The refutations are computed in doubles on the small model of Toy.v."
  },
  {
   "property": "C70",
   "status": "proved",
   "theorems": [
    "C70_defined",
    "C70_listed",
    "C70_named_are_listed",
    "C70_critical"
   ],
   "note": "C70_defined: any numbers; the others exact reals. C70_critical supposes a depth other than 6371 km, the radius slownesses are computed with."
  },
  {
   "property": "C71",
   "status": "proved",
   "theorems": [
    "C71_approx",
    "C71_unchanged",
    "C71_adds",
    "C71_only_then",
    "C71_fixed_iff"
   ],
   "note": "Exact reals. It characterises the models the check accepts. Nothing is claimed about the limits in a model to which the check added samples: every added sample changes the approximate times of the rays already checked."
  },
  {
   "property": "C72",
   "status": "proved",
   "theorems": [
    "C72_ray_unchanged",
    "C72_ray_only_then",
    "C72_ray_fixed_iff",
    "C72_depth_unchanged",
    "C72_depth_only_then",
    "C72_depth_fixed_iff",
    "C72_adds"
   ],
   "note": "Exact reals. The slownesses asked for by rayParamIncCheck are those of the code, beyond the top of the layer (see C45)."
  },
  {
   "property": "C73",
   "status": "proved",
   "theorems": [
    "C73_branch",
    "C73_line",
    "C73_phase",
    "C73_direct",
    "C73_arrival",
    "C73_constructed",
    "C73_turning"
   ],
   "note": "Exact reals. Layers must be thick enough for the code (usable): thinner ones are skipped by bullenRadialSlowness."
  },
  {
   "property": "C74",
   "status": "proved",
   "theorems": [
    "C74_line",
    "C74_seen",
    "C74_reflected",
    "C74_arrival",
    "C74_limit"
   ],
   "note": "Exact reals. Layers must be thick enough for the code, as in C73."
  },
  {
   "property": "C75",
   "status": "proved",
   "theorems": [
    "C75_legs",
    "C75_sample",
    "C75_arrival",
    "C75_textbook"
   ],
   "note": "Exact reals. Layers must be thick enough for the code, as in C73."
  },
  {
   "property": "C76",
   "status": "proved",
   "theorems": [
    "C76_once",
    "C76_extent",
    "C76_direct",
    "C76_reflected",
    "C76_arrivals"
   ],
   "note": "Exact reals. Distance 0 is left out: C07_zero_distance_twice shows that arrivals are doubled there. Layers must be thick enough for the code, as in C73."
  },
  {
   "property": "C77",
   "status": "proved",
   "theorems": [
    "C77_purist",
    "C77_plain",
    "C77_arrivals"
   ],
   "note": "Names with ^ or v never give a phase (C03), so that part of createPuristName is not reached. The string of a depth is a parameter."
  },
  {
   "property": "C78",
   "status": "proved",
   "theorems": [
    "C78_forth",
    "C78_reach",
    "C78_exact"
   ],
   "note": "Discharges the hypothesis of C07_exact. Zones of both wave types in range are excluded: the points of the second type are made from later samples (C33_second_wave_type_refuted)."
  },
  {
   "property": "C79",
   "status": "proved",
   "theorems": [
    "C79_diffracted",
    "C79_head_wave"
   ],
   "note": "The time of a head wave is not what the physics asks for (C34_head_wave_refuted); the theorem says what is returned."
  },
  {
   "property": "C80",
   "status": "proved",
   "theorems": [
    "C80_sample",
    "C80_order",
    "C80_join"
   ],
   "note": ""
  },
  {
   "property": "C81",
   "status": "proved",
   "theorems": [
    "C81_curve",
    "C81_arrivals"
   ],
   "note": "That the other phase's query returns is a hypothesis (see C37_defined for when it does)."
  },
  {
   "property": "C82",
   "status": "proved",
   "theorems": [
    "C82_order",
    "C82_sum",
    "C82_multiple"
   ],
   "note": ""
  },
  {
   "property": "C83",
   "status": "proved",
   "theorems": [
    "C83_increment",
    "C83_order"
   ],
   "note": ""
  },
  {
   "property": "C84",
   "status": "proved",
   "theorems": [
    "C84_depth"
   ],
   "note": ""
  }
 ]
}