{
 "claims": [
  {
   "property": "C01",
   "status": "proved",
   "theorems": [
    "otfs_history_correct",
    "otfs_cpp_stream_correct"
   ],
   "note": "Exact arithmetic. Any program over any number of objects, self-merges included."
  },
  {
   "property": "C02",
   "status": "proved",
   "theorems": [
    "otfs_order_independent",
    "otfs_partition_independent",
    "otfs_variance_nonneg"
   ],
   "note": ""
  },
  {
   "property": "C03",
   "status": "proved",
   "theorems": [
    "otfs_serialization_roundtrip",
    "otfs_unserialize_safe"
   ],
   "note": "Number printer/parser abstract (round trip, no separator) with a concrete instance."
  },
  {
   "property": "C04",
   "status": "proved",
   "theorems": [
    "otfs_empty_merge_refuted",
    "otfs_empty_merge_neutral",
    "otfs_empty_merge_big"
   ],
   "note": "The claim in full generality is false of the code and proved so; it holds for empty samples with zero variance, and for objects with at least two data."
  },
  {
   "property": "C05",
   "status": "proved",
   "theorems": [
    "ddda_stream_correct",
    "ddda_block_data_length"
   ],
   "note": "Exact arithmetic."
  },
  {
   "property": "C06",
   "status": "proved",
   "theorems": [
    "ddda_merge_structure"
   ],
   "note": "Every program of additions and merges between distinct objects."
  },
  {
   "property": "C07",
   "status": "proved",
   "theorems": [
    "ddda_self_merge_refuted",
    "ddda_self_merge_no_waiting",
    "ddda_self_merge_total"
   ],
   "note": "The claim in full generality is false of the code and proved so; what does hold is proved beside it."
  },
  {
   "property": "C08",
   "status": "proved",
   "theorems": [
    "ddda_optimal_block",
    "ddda_cpp_optimal_block",
    "ddda_cpp_optimal_block_refuted"
   ],
   "note": "Python class in full. The C++ class agrees below 2^24 data; the bound is sharp: for some 2^24 data the cube of the block size wraps around and another block than the documented one is reported (proved)."
  },
  {
   "property": "C09",
   "status": "proved",
   "theorems": [
    "ddda_serialization_roundtrip",
    "ddda_unserialize_reject",
    "ddda_unserialize_accept"
   ],
   "note": "Number printer/parser abstract (round trip, no separator, nonempty) with a concrete instance."
  },
  {
   "property": "C10",
   "status": "proved",
   "theorems": [
    "autocorr_stream_correct",
    "autocorr_statistics",
    "autocorr_lagged_products",
    "autocorr_memory_bounded"
   ],
   "note": "Exact arithmetic; data of any type with any multiplicator."
  },
  {
   "property": "C23",
   "status": "proved",
   "theorems": [
    "data2d_nearest_point"
   ],
   "note": ""
  },
  {
   "property": "C24",
   "status": "proved",
   "theorems": [
    "data2d_moving_average_even",
    "data2d_moving_average_uneven_refuted"
   ],
   "note": "Proved for evenly spaced points; refuted for unevenly spaced ones."
  },
  {
   "property": "C25",
   "status": "proved",
   "theorems": [
    "data2d_local_maxima",
    "data2d_local_minima"
   ],
   "note": ""
  },
  {
   "property": "C26",
   "status": "proved",
   "theorems": [
    "plot_equal_sign_ranges"
   ],
   "note": "Soundness and uniqueness of the partition."
  },
  {
   "property": "C27",
   "status": "proved",
   "theorems": [
    "collection_keep_every_nth"
   ],
   "note": ""
  },
  {
   "property": "C69",
   "status": "proved",
   "theorems": [
    "collection_add_data"
   ],
   "note": ""
  },
  {
   "property": "C28",
   "status": "proved",
   "theorems": [
    "vac_minimum_time_refuted",
    "vac_content_exact"
   ],
   "note": "The claim is false of the code and proved so; what the code does is characterised exactly. Rounding function arbitrary."
  },
  {
   "property": "C29",
   "status": "proved",
   "theorems": [
    "flow_profile_pooled",
    "flow_global_pooled",
    "flow_multi_block_profile_refuted"
   ],
   "note": "For single-block files; refuted for files with several blocks (the profile becomes empty)."
  },
  {
   "property": "C60",
   "status": "proved",
   "theorems": [
    "flow_blocks",
    "flow_recording_accepts"
   ],
   "note": "Exact arithmetic."
  },
  {
   "property": "C61",
   "status": "proved",
   "theorems": [
    "histogram_counts",
    "histogram_normalized",
    "histogram_save_check_refuted"
   ],
   "note": "Exact arithmetic; saving does not reject positions although documented."
  },
  {
   "property": "C62",
   "status": "proved",
   "theorems": [
    "density_file",
    "density_reduction"
   ],
   "note": "Exact arithmetic; also the reduction by the analysis."
  },
  {
   "property": "C70",
   "status": "proved",
   "theorems": [
    "flow_simulation_to_analysis",
    "flow_subdivided_unreadable_refuted"
   ],
   "note": "Proved for cells that are not subdivided and one block; refuted for subdivided cells. Number printer/parser abstract with a concrete instance."
  },
  {
   "property": "C11",
   "status": "proved",
   "theorems": [
    "conf_set_read",
    "conf_set_succeeds",
    "conf_delete",
    "conf_delete_succeeds",
    "conf_alias_refuted"
   ],
   "note": "Names made of plain components (no list indices). Proved for configurations in which no object is shared; refuted for configurations to which one of their own sub-groups was assigned."
  },
  {
   "property": "C12",
   "status": "proved",
   "theorems": [
    "conf_contains_config",
    "conf_contains_groups",
    "conf_contains_list_refuted"
   ],
   "note": "Holds on complete configurations and on groups without lists; refuted for groups and lists taken out of a configuration."
  },
  {
   "property": "C13",
   "status": "proved",
   "theorems": [
    "conf_equiv_spec",
    "conf_equiv_refl",
    "conf_equiv_sym",
    "conf_equiv_trans",
    "conf_equiv_order"
   ],
   "note": ""
  },
  {
   "property": "C14",
   "status": "proved",
   "theorems": [
    "conf_flat_view",
    "conf_differences",
    "conf_differences_empty",
    "conf_differences_swap",
    "conf_equiv_no_differences",
    "conf_no_differences_equiv_refuted"
   ],
   "note": ""
  },
  {
   "property": "C71",
   "status": "proved",
   "theorems": [
    "conf_canonicalize",
    "conf_canonicalize_alias_refuted"
   ],
   "note": "The translation is correct; independence of the results is refuted (flowProfile.cellSubdivision and densityProfile.cellSubdivision become one object)."
  },
  {
   "property": "C15",
   "status": "proved",
   "theorems": [
    "targets_product",
    "targets_describe",
    "targets_fail"
   ],
   "note": "Generators are taken to be lists of configuration parts."
  },
  {
   "property": "C16",
   "status": "proved",
   "theorems": [
    "rundir_new",
    "rundir_name",
    "rundir_succeeds",
    "rundirs_sequence",
    "rundir_no_prefix_refuted"
   ],
   "note": "Proved for all file systems; the claim is false without rundirNamePrefix, and proved to be so."
  },
  {
   "property": "C17",
   "status": "proved",
   "theorems": [
    "jobs_scripts",
    "jobs_partition",
    "jobs_refused",
    "jobs_negative_refuted"
   ],
   "note": "Run directories must exist and not contain one another. Negative chunk sizes are accepted silently (proved)."
  },
  {
   "property": "C18",
   "status": "proved",
   "theorems": [
    "state_documented",
    "state_deterministic",
    "state_prepared",
    "state_relative_refuted",
    "state_regenerated_refuted"
   ],
   "note": "Termination is false in general and proved to be so; the state, where it is reported, is the documented one."
  },
  {
   "property": "C19",
   "status": "proved",
   "theorems": [
    "nodes_total",
    "nodes_simple",
    "nodes_roundtrip",
    "nodes_padding_refuted",
    "nodes_two_ranges_refuted",
    "nodes_empty_refuted"
   ],
   "note": "The general claim is false and proved to be so."
  },
  {
   "property": "C20",
   "status": "proved",
   "theorems": [
    "translator_single",
    "translators_all_last",
    "translators_refuted"
   ],
   "note": "False for several translators (late binding), proved to be so."
  },
  {
   "property": "C21",
   "status": "proved",
   "theorems": [
    "target_completed",
    "target_pending",
    "target_monotone",
    "target_groups",
    "runs_filtered",
    "runs_matching"
   ],
   "note": ""
  },
  {
   "property": "C22",
   "status": "proved",
   "theorems": [
    "cache_roundtrip",
    "cache_other_state",
    "cache_other_name",
    "cache_crash_early",
    "cache_crash_between",
    "cache_crash_refuted",
    "cache_truncated_refuted",
    "cache_write_path_refuted"
   ],
   "note": "Crash consistency is false and proved to be so. Number formatting and YAML are parameters."
  },
  {
   "property": "C30",
   "status": "proved",
   "theorems": [
    "rotation_is_rotation",
    "rotation_group",
    "rotation_python"
   ],
   "note": "Exact real arithmetic."
  },
  {
   "property": "C31",
   "status": "proved",
   "theorems": [
    "complex_rotation_refuted",
    "complex_rotation_length",
    "complex_rotation_real"
   ],
   "note": "The claim is false of the code and proved so; when the length is kept is characterised exactly."
  },
  {
   "property": "C32",
   "status": "proved",
   "theorems": [
    "projection_splits",
    "normalized_unit",
    "no_direction_fails",
    "products_correct",
    "angle_correct"
   ],
   "note": "Exact real arithmetic."
  },
  {
   "property": "C33",
   "status": "proved",
   "theorems": [
    "random_direction_unit",
    "random_direction_all"
   ],
   "note": "Exact real arithmetic."
  },
  {
   "property": "C72",
   "status": "proved",
   "theorems": [
    "vector_order"
   ],
   "note": ""
  },
  {
   "property": "C34",
   "status": "proved",
   "theorems": [
    "centre_of_mass_correct",
    "centre_of_mass_frame",
    "centre_of_mass_frame_fails"
   ],
   "note": "Collections with velocities; without velocities the shift raises an exception, which is proved."
  },
  {
   "property": "C35",
   "status": "proved",
   "theorems": [
    "gyration_tensor_always",
    "gyration_tensor_facts",
    "gyration_tensor_stale_refuted"
   ],
   "note": "Proved for all sequences of method calls; refuted if the caller modifies a vector returned by getPosition."
  },
  {
   "property": "C73",
   "status": "proved",
   "theorems": [
    "rotate_collection",
    "rotate_collection_refuted",
    "rotate_collection_general"
   ],
   "note": "Refuted for shared vector objects; proved without sharing, and what happens in general is characterised."
  },
  {
   "property": "C74",
   "status": "proved",
   "theorems": [
    "shape_descriptors",
    "line_angle_correct"
   ],
   "note": "Eigenvalue computation of the library is a parameter."
  },
  {
   "property": "C75",
   "status": "proved",
   "theorems": [
    "rotation_frequency_correct"
   ],
   "note": "Matrix inversion of the library is a parameter."
  },
  {
   "property": "C76",
   "status": "proved",
   "theorems": [
    "eckart_rigid_body",
    "eckart_construction_fails"
   ],
   "note": "Matrix inversion and matrix square root of the library are parameters. Constructing from a reference without velocities fails, which is proved."
  },
  {
   "property": "C45",
   "status": "proved",
   "theorems": [
    "lees_edwards_images"
   ],
   "note": "Exact real arithmetic."
  },
  {
   "property": "C46",
   "status": "proved",
   "theorems": [
    "cell_indices",
    "cell_index_documented",
    "cell_indices_refuted"
   ],
   "note": "Proved for fewer than 2^32 cells; refuted for more, where 32-bit arithmetic wraps."
  },
  {
   "property": "C47",
   "status": "proved",
   "theorems": [
    "collision_momentum",
    "collision_energy",
    "collision_thermostat",
    "collision_alone",
    "collision_turns"
   ],
   "note": "Exact real arithmetic; random numbers are arbitrary; the parallel additions are those of C48."
  },
  {
   "property": "C48",
   "status": "proved",
   "theorems": [
    "concurrent_additions",
    "concurrent_termination",
    "concurrent_contributions",
    "concurrent_energies"
   ],
   "note": "Exact real arithmetic, sequentially consistent memory. Forces: see C52."
  },
  {
   "property": "C49",
   "status": "proved",
   "theorems": [
    "launch_all_once",
    "launch_endless_default",
    "launch_twice_refuted"
   ],
   "note": "Proved for counts at least one full grid below 2^32; for larger counts the loop does not end (default sizes), or can dispatch units twice, which is proved."
  },
  {
   "property": "C54",
   "status": "proved",
   "theorems": [
    "bunch_elements",
    "bunch_elements_refuted",
    "strided_elements",
    "pointer_advancing"
   ],
   "note": "Bunched ranges of at most 2^32 elements; refuted for longer ones."
  },
  {
   "property": "C56",
   "status": "proved",
   "theorems": [
    "bitset_array",
    "bitset_concurrent",
    "bitset_all_bits",
    "bitset_room",
    "bitset_room_refuted"
   ],
   "note": "The bit operations are correct under all interleavings; that the storage has room is false (size computed from an uninitialised member) and proved so."
  },
  {
   "property": "C57",
   "status": "proved",
   "theorems": [
    "minstd_full_period",
    "minstd_32_refuted",
    "minstd_seed_zero"
   ],
   "note": "For 64-bit uint_fast32_t; refuted for 32 bits."
  },
  {
   "property": "C53",
   "status": "proved",
   "theorems": [
    "force_is_minus_gradient",
    "forces_opposite",
    "potentials_documented",
    "cutoff_continuous",
    "cutoff_continuous_refuted",
    "cutoff_jump",
    "analysis_potentials"
   ],
   "note": "Exact real arithmetic. Continuity at the cutoff is false for the Lennard-Jones potential and proved so."
  },
  {
   "property": "C50",
   "status": "proved",
   "theorems": [
    "streaming_momentum",
    "streaming_total_momentum",
    "streaming_reversible",
    "streaming_order",
    "streaming_succeeds",
    "rods_fail",
    "streaming_step",
    "streaming_steps",
    "streaming_no_steps"
   ],
   "note": "Exact real arithmetic; threads work on different molecules and are run in any order."
  },
  {
   "property": "C51",
   "status": "proved",
   "theorems": [
    "exact_streaming_conserves",
    "exact_streaming_group",
    "exact_streaming_motion",
    "spring_parameters"
   ],
   "note": "Exact real arithmetic."
  },
  {
   "property": "C77",
   "status": "proved",
   "theorems": [
    "eckart_conditions",
    "eckart_mismatch"
   ],
   "note": "Matrix inversion and matrix square root of the library are parameters."
  },
  {
   "property": "C36",
   "status": "proved",
   "theorems": [
    "star_numbering",
    "star_numbering_order",
    "star_numbering_analysis"
   ],
   "note": "Numbers of particles do not overflow."
  },
  {
   "property": "C37",
   "status": "proved",
   "theorems": [
    "star_bonds_tree",
    "star_bonds"
   ],
   "note": "Numbers of particles do not overflow."
  },
  {
   "property": "C38",
   "status": "proved",
   "theorems": [
    "star_numbering_analysis",
    "star_bonds_agree",
    "star_potentials_agree",
    "star_potentials_refuted"
   ],
   "note": "Types, places, bonds and potentials agree; false, and proved so, for magnetic particles bound to the core, for whose bonds the simulation has no potential."
  },
  {
   "property": "C40",
   "status": "proved",
   "theorems": [
    "star_clusters",
    "star_clusters_limit",
    "star_clusters_refuted"
   ],
   "note": "Proved for magnetic particles at different positions and a sufficient recursion limit; false for coincident particles, and proved so."
  },
  {
   "property": "C41",
   "status": "proved",
   "theorems": [
    "star_energy",
    "star_energy_refuted"
   ],
   "note": "The energy is the sum over pairs for stars with magnetic particles; without them, it cannot be computed, which is proved."
  },
  {
   "property": "C52",
   "status": "proved",
   "theorems": [
    "star_force_buffer",
    "star_force_gradient",
    "star_total_force",
    "star_md_step",
    "star_md_momentum",
    "star_md_schedule",
    "star_md_reversible",
    "star_md_possible",
    "star_md_impossible"
   ],
   "note": "Exact real arithmetic; all interleavings of the threads. No step is possible if magnetic particles are bound to the core, which is proved."
  },
  {
   "property": "C78",
   "status": "proved",
   "theorems": [
    "star_initial",
    "star_initial_refuted"
   ],
   "note": "Proved for one star with at least one arm; false without arms or for further stars, and proved so."
  },
  {
   "property": "C39",
   "status": "proved",
   "theorems": [
    "star_snapshot_restart",
    "star_snapshot_accepted",
    "star_state_missing_refuted"
   ],
   "note": "For all structure parameters and any file that has no atoms yet; also the state is read back. Reading the state of a file without a timestep succeeds and leaves the state as it was, which is proved."
  },
  {
   "property": "C42",
   "status": "proved",
   "theorems": [
    "vtf_roundtrip",
    "vtf_names_refuted",
    "vtf_whitespace_refuted"
   ],
   "note": "For every sequence of calls; that printed numbers can be read back is a hypothesis. False for names with commas (which are documented to be legal) or white space, and proved so."
  },
  {
   "property": "C43",
   "status": "proved",
   "theorems": [
    "vtf_block_meaning",
    "vtf_redefinition_refuted",
    "vtf_debug_range",
    "vtf_debug_refuted"
   ],
   "note": "For every sequence of legal lines; properties that are not given are reset to the defaults, and debug builds abort for some legal files, both of which is proved."
  },
  {
   "property": "C44",
   "status": "proved",
   "theorems": [
    "py_vtf_roundtrip",
    "py_reads_cpp",
    "py3_write_refuted",
    "py_vtf_newline_refuted"
   ],
   "note": "Proved for Python 2, complete lines and numbers that can be read back; false for Python 3 and for structure blocks that do not end in a line break, and proved so."
  },
  {
   "property": "C79",
   "status": "proved",
   "theorems": [
    "vtf_timestep_block",
    "vtf_timestep_indexed",
    "vtf_timestep_header_refuted"
   ],
   "note": "Proved for the headers that are recognised; any other word is accepted as a header too, which is proved."
  },
  {
   "property": "C80",
   "status": "proved",
   "theorems": [
    "vtf_block_meaning",
    "vtf_bond_twice",
    "vtf_bond_undeclared"
   ],
   "note": "For every sequence of legal lines; duplicates are rejected."
  },
  {
   "property": "C58",
   "status": "proved",
   "theorems": [
    "msd_values",
    "msd_count",
    "msd_analysis",
    "msd_fit_times",
    "msd_fit_maximum_refuted"
   ],
   "note": "From the calls of measure to the statistics in the analysis, for any number of runs, measurements and lags; printed numbers are read back up to an arbitrary rounding. That maxTime is used by the fit, as documented, is false and proved so."
  },
  {
   "property": "C55",
   "status": "proved",
   "theorems": [
    "mode_autocorrelation",
    "normal_coordinates"
   ],
   "note": "Exact real arithmetic; the numbers of coordinates fit into 32 bits. The threads may run in any order."
  },
  {
   "property": "C59",
   "status": "proved",
   "theorems": [
    "nm_room",
    "nm_values",
    "nm_analysis",
    "nm_python3_refuted",
    "nm_buffer_count_refuted",
    "nm_values_requested_refuted",
    "nm_room_refuted"
   ],
   "note": "Proved for fewer than 2^32/8 vectors of normal coordinates and Python 2. The constructor asks for a third of the elements needed; the values are right only since buffers are made larger than asked for, and they are not for larger systems. Python 3 cannot read the files. All of this is proved."
  },
  {
   "property": "C82",
   "status": "proved",
   "theorems": [
    "normal_coordinate_host",
    "normal_coordinates",
    "normal_mode_zero",
    "normal_modes_shifted",
    "normal_modes_default",
    "normal_modes_default_refuted"
   ],
   "note": "Exact real arithmetic. Invariance of odd modes for the default shift is false and proved so."
  },
  {
   "property": "C63",
   "status": "proved",
   "theorems": [
    "device_memory",
    "device_memory_free",
    "device_memory_size",
    "pointer_kinds"
   ],
   "note": "For every sequence of calls; the CUDA runtime is a parameter that hands out unused pointers."
  },
  {
   "property": "C64",
   "status": "proved",
   "theorems": [
    "mpi_owner",
    "mpi_not_owner",
    "mpi_copy_refuted",
    "mpi_use_refuted",
    "mpi_threads_refuted"
   ],
   "note": "Proved for handles that are not copied. Copying a handle ends the program, and handles fail after the first is destroyed or threads are not supported, which is proved."
  },
  {
   "property": "C83",
   "status": "proved",
   "theorems": [
    "device_buffer_room",
    "device_buffer_room_refuted"
   ],
   "note": "Proved below 2^32 bytes (squared element size times count); beyond, it is false, and proved so."
  },
  {
   "property": "C65",
   "status": "proved",
   "theorems": [
    "rundir_accepted",
    "rundir_kept"
   ],
   "note": "For every content of the directory, in any order; also no entry that was there is written to."
  },
  {
   "property": "C66",
   "status": "proved",
   "theorems": [
    "option_errors_refuted",
    "option_errors",
    "exit_status"
   ],
   "note": "The claim is false: the status is 0 if the command line cannot be parsed, which is proved; for which other outcomes it is 0 is proved too."
  },
  {
   "property": "C84",
   "status": "proved",
   "theorems": [
    "run_sweeps",
    "run_saves",
    "second_termination",
    "early_save_fatal_refuted"
   ],
   "note": "For every sequence of signals, times and failures; signals are seen at the next iteration. That a failed early save leaves the run unchanged is false for errors of the file system, and proved so."
  },
  {
   "property": "C86",
   "status": "proved",
   "theorems": [
    "star_snapshots",
    "star_snapshots_refuted"
   ],
   "note": "Proved without early saves; with early saves it is false, and proved so: the snapshots are spread over the files, none is lost."
  },
  {
   "property": "C85",
   "status": "proved",
   "theorems": [
    "trimer_histograms",
    "trimer_xy2_refuted",
    "trimer_self_diffusion",
    "trimer_intervals_unique",
    "dumbbell_histograms",
    "dumbbell_averages_recorded",
    "rod_histogram",
    "chain_bond_lengths",
    "chain_save_refuted",
    "chain_configured"
   ],
   "note": "Exact real arithmetic. False for the XY histogram of the second bond of trimers, and for chains with fewer than two data; both are proved so, and the rest is proved."
  },
  {
   "property": "C87",
   "status": "proved",
   "theorems": [
    "pairs_read",
    "pairs_read_lines",
    "pairs_minimum_refuted",
    "open_file",
    "histogram_mean",
    "tan_2_chi",
    "alignment_files",
    "alignment_fallback_refuted"
   ],
   "note": "Exact arithmetic with arbitrary rounding of printed numbers. False for the documented meaning of the minimum (the code keeps keys that are not smaller) and for the older file names; both are proved so, and the rest is proved."
  },
  {
   "property": "C67",
   "status": "proved",
   "theorems": [
    "known_bugs",
    "known_bugs_later",
    "repository_description",
    "repository_description_refuted"
   ],
   "note": "For every commit graph, given that the library walks exactly the ancestors of a commit. The description of the repository is false on branches whose name ends in the suffix, and proved so."
  },
  {
   "property": "C68",
   "status": "proved",
   "theorems": [
    "fit_called",
    "fit_rejects",
    "fit_bounds_refuted",
    "fit_parameters",
    "many_fits",
    "single_fit",
    "best_fit",
    "fits_equal",
    "fits_unfitted_refuted",
    "fits_broadcast_refuted",
    "fits_mixed"
   ],
   "note": "The optimiser is arbitrary. Equality is false, and proved so, for fits with one parameter (broadcasting) and for unfitted objects (exception); bounds of the wrong length raise another exception than documented."
  },
  {
   "property": "C88",
   "status": "proved",
   "theorems": [
    "consistent_value",
    "consistent_group_refuted"
   ],
   "note": "False for settings that are groups or lists, and proved so; proved for scalar settings."
  },
  {
   "property": "C81",
   "status": "proved",
   "theorems": [
    "digits_suffice",
    "number_text_read",
    "doubles_print",
    "star_restart_double",
    "accumulator_text_read",
    "digits_needed",
    "single_accumulator_refuted",
    "chains_digits_refuted",
    "python2_digits_refuted"
   ],
   "note": "Proved for all finite doubles written with 17 digits, at the level of values (any rounding of ties) and of texts. False for accumulators of float (8 digits), for bond lengths of chains (6 digits) and for str in Python 2 (12 digits), and proved so."
  },
  {
   "property": "C89",
   "status": "proved",
   "theorems": [
    "fourier_simple",
    "fourier_groups",
    "fourier_launch_size",
    "fourier_periodic",
    "fourier_conjugate"
   ],
   "note": "Real numbers; any order of threads. The particle count has to fit in 32 bits with a margin of 512 chains, and three times the number of constituents in 32 bits."
  },
  {
   "property": "C90",
   "status": "proved",
   "theorems": [
    "transverse_parts",
    "transverse_tables",
    "transverse_times",
    "transverse_incomplete",
    "transverse_zero"
   ],
   "note": "Texts of numbers are read back exactly (C81), arithmetic is exact. Tables are proved where the mean for time zero is not zero; the two ways to fail are proved."
  },
  {
   "property": "C91",
   "status": "proved",
   "theorems": [
    "transverse_script",
    "transverse_script_cube",
    "transverse_script_refuted"
   ],
   "note": "False for boxes whose sides differ, and proved so: the script projects onto the plane perpendicular to the integer components. Proved for cubes. Python 2."
  },
  {
   "property": "C92",
   "status": "proved",
   "theorems": [
    "configuration_set",
    "configuration_set_rejected",
    "configuration_set_illegal",
    "configuration_set_read",
    "configuration_create",
    "configuration_set_unsigned",
    "configuration_set_unsigned_refuted"
   ],
   "note": "libconfig is modelled as a tree of settings. False for unsigned values from 2^31 on, which are stored as negative numbers, and proved so."
  },
  {
   "property": "C93",
   "status": "proved",
   "theorems": [
    "configuration_read",
    "configuration_relative",
    "configuration_illegal",
    "configuration_illegal_refuted",
    "configuration_children",
    "configuration_lists",
    "configuration_lists_refuted",
    "configuration_read_all",
    "configuration_assert"
   ],
   "note": "What libconfig makes of negative numbers that are read as unsigned is a parameter. False for illegal names below a missing group, and for lists that are not lists; both are proved so."
  },
  {
   "property": "C94",
   "status": "proved",
   "theorems": [
    "simulation_constructed",
    "simulation_failures",
    "simulation_volume",
    "simulation_volume_refuted",
    "simulation_deprecated_refuted",
    "simulation_trimers_refuted",
    "simulation_thermostat_refuted"
   ],
   "note": "Which configurations are accepted, and the exceptions otherwise, is proved; the constructor of star polymers is a parameter. That accepted configurations can be simulated as documented is false, and proved so, for volumes from 2^32 on, trimers with analytical streaming, and thermostat types with fluids other than dumbbells; dumbbells reject the deprecated form of boundary conditions."
  },
  {
   "property": "C95",
   "status": "proved",
   "theorems": [
    "initial_velocities",
    "initial_temperature",
    "initial_temperature_divisor",
    "initial_positions",
    "initial_rods",
    "initial_rods_end",
    "initial_rods_endless_refuted",
    "initial_dumbbells",
    "multiplier_ratio_unique",
    "initial_dumbbells_rejected",
    "initial_dumbbells_second_refuted",
    "initial_chains",
    "initial_chains_refuted"
   ],
   "note": "Random numbers are streams; the root of the cubic polynomial is a parameter. False, and proved so: neighbours in chains need not have distance 1, a second fluid of dumbbells gets the bond vector of the first, and rods longer than the diagonal of the box are never placed."
  },
  {
   "property": "C96",
   "status": "proved",
   "theorems": [
    "series_values",
    "series_standstill",
    "series_shape",
    "series_rotation",
    "series_eckart",
    "series_sparse",
    "series_sparse_values",
    "series_wrong_count",
    "series_times",
    "series_times_refuted"
   ],
   "note": "Values and order are proved. The times are right for sweeps of one step; for others that part is false, and proved so. Files that the simulation writes are read back by py_reads_cpp (C44)."
  },
  {
   "property": "C97",
   "status": "proved",
   "theorems": [
    "analysis_cached",
    "analysis_update",
    "analysis_fails",
    "analysis_stale_refuted",
    "analysis_write_path_refuted",
    "analysis_vectors_refuted"
   ],
   "note": "Proved as long as nothing but the cache changes, for values that are read back from their texts. False for changed snapshots, for a separate path for writing, and for analyses of vectors, and proved so."
  },
  {
   "property": "C98",
   "status": "proved",
   "theorems": [
    "gamma_sampled",
    "gamma_rounds",
    "gamma_squeeze",
    "gamma_any_shape",
    "thermostat_energy"
   ],
   "note": "Distributions are stated through densities: what is proved is the pointwise identity that the change of variables needs, and that the code makes exactly the decisions of the rejection method."
  },
  {
   "property": "C99",
   "status": "proved",
   "theorems": [
    "prediction_formulas",
    "prediction_mean_free_path",
    "prediction_positive",
    "prediction_one_dimension",
    "prediction_python",
    "prediction_python2_refuted",
    "prediction_script_values",
    "prediction_script_invalid"
   ],
   "note": "Proved, with the exception of the Python functions called with integers in Python 2 and of self-diffusion in one dimension, for which it is false and proved so."
  },
  {
   "property": "C100",
   "status": "proved",
   "theorems": [
    "dumbbell_ratio",
    "dumbbell_ratio_python",
    "dumbbell_predictions",
    "dumbbell_relaxation_time",
    "dumbbell_multiplier",
    "dumbbell_curves",
    "dumbbell_former_refuted",
    "dumbbell_quick_refuted",
    "dumbbell_quick_point"
   ],
   "note": "Proved for runs of the present format, if numpy returns the real root first. For runs of the two older formats that the script is meant to read it is false, and proved so."
  },
  {
   "property": "C101",
   "status": "proved",
   "theorems": [
    "relaxation_series",
    "relaxation_normalised",
    "relaxation_normalised_refuted",
    "relaxation_invalid",
    "relaxation_format_refuted"
   ],
   "note": "Proved for files in the format of the script in which the entries for time difference 0 come first, since Python 3.7. For other orders, and for the files of the simulation, it is false and proved so."
  },
  {
   "property": "C102",
   "status": "proved",
   "theorems": [
    "points_table",
    "points_error_refuted",
    "points_saved",
    "points_saved_same",
    "points_saved_refuted",
    "points_mean",
    "points_average",
    "points_extrema",
    "points_plotted"
   ],
   "note": "Proved, except that errors stay when a point is given a new value without error, that points with errors are lost when a saved file is read, and that extrema raise TypeError in Python 3; these are false and proved so."
  },
  {
   "property": "C103",
   "status": "proved",
   "theorems": [
    "static_data"
   ],
   "note": ""
  },
  {
   "property": "C104",
   "status": "proved",
   "theorems": [
    "instruments_constructed",
    "instruments_constructed_fresh",
    "instruments_located",
    "instruments_measure",
    "instruments_histogram",
    "instruments_density",
    "instruments_density_refuted",
    "instruments_flow",
    "instruments_images",
    "instruments_images_refuted",
    "instruments_other",
    "instruments_saved",
    "instruments_autosave"
   ],
   "note": "Proved, except that with subdivisions the last column of the density profile is not the density, and that the histogram of velocities depends on the images; these are false and proved so."
  },
  {
   "property": "C105",
   "status": "proved",
   "theorems": [
    "autocorrelation_velocities",
    "autocorrelation_triplets_exact",
    "autocorrelation_triplets_refuted",
    "autocorrelation_records",
    "autocorrelation_bounds",
    "autocorrelation_configured",
    "autocorrelation_regular",
    "autocorrelation_regular_intervals",
    "autocorrelation_procedure_refuted",
    "autocorrelation_read_back"
   ],
   "note": "Proved for all fluids but triplets, for which the recorded values are wrong, and proved so; the procedure for snapshots is not quite the documented one, which is also proved."
  },
  {
   "property": "C106",
   "status": "proved",
   "theorems": [
    "autocorrelation_read_back",
    "autocorrelation_script",
    "autocorrelation_script_errors",
    "autocorrelation_texts",
    "autocorrelation_metadata_refuted"
   ],
   "note": "Proved; the claim about the metadata is false and proved so, and a time difference with a single datum makes the script fail."
  },
  {
   "property": "C107",
   "status": "proved",
   "theorems": [
    "stars_from_settings",
    "stars_rejected",
    "stars_potentials",
    "stars_start",
    "stars_start_refuted",
    "stars_snapshot",
    "stars_restart",
    "stars_no_timestep_refuted",
    "stars_missing_file",
    "stars_other_structure"
   ],
   "note": "Proved; for several stars or stars without arms, and for snapshots without timesteps, the claim about initial positions is false and proved so."
  },
  {
   "property": "C108",
   "status": "proved",
   "theorems": [
    "remote_updates",
    "remote_values",
    "remote_vector_updates",
    "remote_assignment",
    "remote_assignment_refuted",
    "remote_products",
    "remote_get",
    "remote_complex_refuted"
   ],
   "note": "Proved for real elements; for complex elements, the claim about the scalar product is false and proved so."
  },
  {
   "property": "C109",
   "status": "proved",
   "theorems": [
    "planar_products",
    "planar_angle",
    "planar_angle_zero",
    "planar_equality",
    "planar_complex"
   ],
   "note": "Proved; with the vector of zeros the code divides by zero."
  },
  {
   "property": "C110",
   "status": "proved",
   "theorems": [
    "file_opened",
    "file_opened_refuted",
    "files_found",
    "data_files_found",
    "data_files_once_refuted",
    "properties_read",
    "properties_documented_refuted",
    "consistent_integer",
    "consistent_number",
    "consistent_failures"
   ],
   "note": "Proved for names of at least four characters and for lines `#name#value`; for shorter names and for the documented form of lines, the claim is false and proved so."
  },
  {
   "property": "C111",
   "status": "proved",
   "theorems": [
    "correlation_program",
    "correlation_program_nothing",
    "correlation_program_errors",
    "correlation_program_status",
    "correlation_program_incomplete",
    "correlation_table_unfinished",
    "correlation_tables_kept_refuted",
    "correlation_program_silent_refuted"
   ],
   "note": "Proved for what the program writes; that all of it is kept, and that files which cannot be opened are errors, is false and proved so."
  },
  {
   "property": "C112",
   "status": "proved",
   "theorems": [
    "file_provided",
    "file_refused",
    "directory_provided",
    "directory_readable",
    "directory_each_file_refuted",
    "file_dictionary_refuted",
    "file_plots_kept_refuted",
    "file_text_refuted",
    "correlation_tables_unreadable",
    "script_files_read"
   ],
   "note": "Proved as stated for one file and for directories; that files without a given dictionary have their own characteristics, that texts are kept without blanks, and that a directory contributes each of its files is false and proved so."
  },
  {
   "property": "C113",
   "status": "proved",
   "theorems": [
    "plotter_canvas",
    "plot_toggled",
    "plotter_list",
    "list_sorted",
    "list_sorting_kept",
    "list_sorting_refuted",
    "list_hiding_refuted",
    "list_order_refuted"
   ],
   "note": "Proved as stated; that the order takes effect at once, and that hiding leaves the sorting alone or succeeds, is false and proved so."
  },
  {
   "property": "C114",
   "status": "proved",
   "theorems": [
    "dashed_if_negative",
    "error_bands",
    "error_bands_log",
    "error_bands_log_refuted",
    "slider_value",
    "slider_steps"
   ],
   "note": "Proved; that bounds on a logarithmic scale are positive is false and proved so."
  },
  {
   "property": "C115",
   "status": "proved",
   "theorems": [
    "axes_merged",
    "axes_unmerged",
    "axes_labels_refuted"
   ],
   "note": "Proved for axes whose legends have a text for each line; otherwise false and proved so."
  },
  {
   "property": "C116",
   "status": "proved",
   "theorems": [
    "runs_found",
    "runs_initialised",
    "cluster_nodes",
    "nodes_grouped",
    "nodes_no_cluster",
    "batches_grouped",
    "batches_succeed",
    "runs_ignored_refuted",
    "batches_refuted",
    "runs_once_refuted"
   ],
   "note": "Proved as stated; that directories which are not of runs are ignored and that runs are listed once is false and proved so."
  },
  {
   "property": "C117",
   "status": "proved",
   "theorems": [
    "project_selected",
    "project_selectable",
    "project_unknown",
    "project_failed",
    "translator_below",
    "translator_elsewhere",
    "translator_sibling_refuted",
    "project_failed_refuted"
   ],
   "note": "Proved as stated; that failures leave the selection alone and that sibling directories are not translated is false and proved so."
  },
  {
   "property": "C118",
   "status": "proved",
   "theorems": [
    "shear_profile",
    "shear_profile_antisymmetric",
    "shear_profile_integer",
    "shear_profile_coordinates",
    "flow_plotted",
    "flow_band",
    "flow_band_negative",
    "flow_band_refuted"
   ],
   "note": "Proved; the band is correct for equal numbers of data only, the general claim is false and proved so."
  },
  {
   "property": "C119",
   "status": "proved",
   "theorems": [
    "arrows_shown",
    "arrows_only",
    "arrows_two_blocks",
    "arrows_all_refuted",
    "arrows_wide_refuted"
   ],
   "note": "Proved; that all cells of a layer have arrows is false and proved so."
  },
  {
   "property": "C120",
   "status": "proved",
   "theorems": [
    "collection_plot_means",
    "collection_plot_errors",
    "collection_plot_single",
    "collection_plot_empty",
    "collection_plot_arguments",
    "collection_plot_two_regions_refuted",
    "collection_plot_every_nth_refuted"
   ],
   "note": "Proved; that two floats are refused and that plotEveryNth has an effect is false and proved so."
  },
  {
   "property": "C121",
   "status": "proved",
   "theorems": [
    "accumulator_plot",
    "autocorrelation_plot",
    "autocorrelation_plot_refuted",
    "displacement_plot",
    "normal_mode_plot",
    "normal_mode_plot_range",
    "plot_error_unique"
   ],
   "note": "Proved; that autocorrelations of few data can be plotted with errors is false and proved so."
  },
  {
   "property": "C122",
   "status": "proved",
   "theorems": [
    "diffusion_plot",
    "curves_of_runs",
    "bond_lengths_plot",
    "bond_lengths_differ",
    "bond_lengths_theory_only_refuted",
    "bond_lengths_unfinished_refuted"
   ],
   "note": "Proved; that a theory can be plotted alone, and from any file, is false and proved so."
  },
  {
   "property": "C123",
   "status": "proved",
   "theorems": [
    "alignment_plot",
    "alignment_twice",
    "xy_plot_refuted",
    "xy_twice"
   ],
   "note": "Proved; that the second script shows the theory is false and proved so."
  },
  {
   "property": "C124",
   "status": "proved",
   "theorems": [
    "ddda_text_read",
    "ddda_text_accepted",
    "ddda_text_unique",
    "ddda_text_refused",
    "ddda_text_undefined_refuted",
    "ddda_text_inconsistent_refuted"
   ],
   "note": "Proved; that all other texts are refused is false and proved so."
  },
  {
   "property": "C125",
   "status": "proved",
   "theorems": [
    "ddda_cpp_agrees",
    "ddda_cpp_data",
    "ddda_cpp_largest",
    "ddda_cpp_undefined_refuted"
   ],
   "note": "Proved; that blocks that there are not are noticed without debugging is false and proved so."
  },
  {
   "property": "C126",
   "status": "proved",
   "theorems": [
    "interactions_created",
    "interactions_destroyed",
    "interactions_leave_nothing",
    "interactions_refused",
    "interactions_refused_refuted"
   ],
   "note": "Proved; that a failed creation leaves nothing is false and proved so."
  },
  {
   "property": "C127",
   "status": "proved",
   "theorems": [
    "stars_leave_nothing",
    "stars_failed_early",
    "stars_failed_late",
    "stars_failed_refuted"
   ],
   "note": "Proved; that every failed construction leaves nothing is false and proved so; what is left is stated."
  },
  {
   "property": "C128",
   "status": "proved",
   "theorems": [
    "table_saved",
    "table_values",
    "table_values_differ",
    "table_reads_back",
    "table_refused",
    "table_reads_back_refuted"
   ],
   "note": "Proved; that every table can be read back is false and proved so."
  },
  {
   "property": "C129",
   "status": "proved",
   "theorems": [
    "to_device_copies",
    "to_host_copies",
    "on_device_copies",
    "round_trip",
    "memory_zeroed",
    "memory_compared",
    "copies_refused",
    "nothing_compared",
    "copies_fail",
    "pointers_told",
    "copies_refuted"
   ],
   "note": "Proved; that it holds after errors of earlier calls and for any number of bytes is false and proved so."
  },
  {
   "property": "C130",
   "status": "proved",
   "theorems": [
    "address_tells",
    "address_format",
    "address_format_refuted",
    "address_refused",
    "devices_known",
    "no_device",
    "stack_size",
    "stack_size_refuted",
    "main_memory"
   ],
   "note": "Proved; that all addresses have four, two and two digits, that stack sizes are those of the instance's device, and that refused sizes have no effect, is false and proved so."
  },
  {
   "property": "C131",
   "status": "proved",
   "theorems": [
    "number_plotted",
    "vector_plotted",
    "angles_plotted",
    "short_vectors_refused",
    "class_registered",
    "one_registry",
    "analyses_registered",
    "cache_files_distinct",
    "registered_plotted_refuted",
    "windows_plotted"
   ],
   "note": "Proved; that every registered analysis can be plotted is false and proved so."
  },
  {
   "property": "C132",
   "status": "proved",
   "theorems": [
    "waves_listed",
    "waves_agree",
    "waves_differ",
    "compressed_refuted",
    "no_runs",
    "boxes_agree",
    "wave_vector_fits",
    "wave_vector_refused"
   ],
   "note": "Proved; that runs with the same data are always taken together, and that each wave vector is listed once, is false and proved so."
  },
  {
   "property": "C133",
   "status": "proved",
   "theorems": [
    "box_symbols",
    "cell_count_refuted",
    "zero_symbols",
    "number_symbols",
    "dumbbell_symbols",
    "failed_symbols",
    "symbols_consistent_refuted"
   ],
   "note": "Proved; that the number of cells is the product for all sizes, and that calls that throw change nothing, is false and proved so."
  },
  {
   "property": "C134",
   "status": "proved",
   "theorems": [
    "vector_made",
    "vector_not_made",
    "vector_equality",
    "vector_close",
    "close_refused",
    "close_refuted",
    "vector_scaled",
    "vector_item",
    "vector_iterated_refuted"
   ],
   "note": "Proved; that isClose is symmetric, and that one can iterate over vectors, is false and proved so."
  },
  {
   "property": "C135",
   "status": "proved",
   "theorems": [
    "modes_saved",
    "modes_covered",
    "middle_saved",
    "displacements_saved",
    "scripts_idle",
    "metadata_ignored_refuted",
    "metadata_refuted"
   ],
   "note": "Proved; that the name of the metadata file is ignored without a table, and that metadata tell the runs, is false and proved so."
  },
  {
   "property": "C136",
   "status": "proved",
   "theorems": [
    "file_curve",
    "file_curves",
    "shown_total",
    "blank_refused",
    "label_chosen",
    "label_refuted",
    "all_plotted_refuted"
   ],
   "note": "Proved; that all points are plotted, and that labels tell files apart, is false and proved so."
  },
  {
   "property": "C137",
   "status": "proved",
   "theorems": [
    "iterator_states",
    "iterator_moves",
    "iterator_stays",
    "iterator_compared",
    "range_loop",
    "valid_refuted",
    "advance_refuted",
    "empty_range_refuted"
   ],
   "note": "Proved; that isValid answers for singular iterators, that += stops at the end if it starts there, and that empty ranges of null pointers can be looped over, is false and proved so."
  }
 ]
}