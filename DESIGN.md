# Formal model of OpenMPCD: design

This document is the plan written before the proofs. Results, deviations and the
trusted base are kept current in the later sections as the work proceeds.

## Conventions

* One area = a model file `XxxModel.v` (definitions only, each citing file and
  lines in `/repo`), a specification file `XxxSpec.v` (independent of the model),
  proofs in `XxxProof.v`, and `XxxTheorems.v` which contains only the property
  theorems (each closed by `exact lemma.`), their non-vacuity examples, and
  `Print Assumptions`.
* Floating point numbers are modelled by exact numbers: canonical rationals `Qc`
  where only field operations and comparisons occur, reals `R` where square
  roots, trigonometry or derivatives occur. Rounding, overflow to infinity and
  NaN are outside the model.
* Machine integers are unbounded unless the property is about wrap-around, in
  which case the wrap is written out.
* Exceptions are values of an error type; loops are structural recursion or fuel
  with an explicit out-of-fuel result.
* A claim that is false of the faithful model is proved in negated form with a
  witness, in a theorem whose name ends in `_refuted`.

## Plan per property

* **C01 Streaming statistics equal batch statistics.** Model n,M,S records over exact rationals; ops as an inductive tree; invariant: (n, M, S) = (length, mean, sum of squared deviations) of the flattened data.
* **C02 Statistics do not depend on how data are partitioned or ordered.** Corollary of C01 plus permutation invariance of the batch statistics; S >= 0 from the sum of squares.
* **C03 Statistics state survives serialization.** Byte-level split/join on ';' with the number printer/parser as explicit hypotheses (round trip, no separator), instantiated by a decimal printer for the example; C++ reader modelled with exceptions as values.
* **C04 Empty samples are neutral in merges.** Refutation witness on the faithful constructor; positive theorem under mean=variance=0.
* **C05 DDDA blocks hold exactly the block averages.** Model the accumulator as a list of (stats, waiting); invariant relating block i to the list of averages of consecutive 2^i groups; induction over the input.
* **C06 Merging DDDA accumulators preserves the structure.** Same invariant, merge loop as structural recursion over levels; induction over a tree of adds and merges.
* **C07 A DDDA accumulator can be merged with itself.** Model aliasing: the waiting slot read is the one already updated; witness with three data.
* **C08 Optimal block search never fails and returns the documented block.** Loop modelled downward over block IDs; invariant from C06 shows the assertion cannot fire; specification stated with 'first block such that'.
* **C09 DDDA state survives serialization.** As C03 with '|' and per-block strings.
* **C10 On-the-fly autocorrelation averages exactly the lagged products.** State machine over the remembered window; invariant to list-level specification.
* **C11 Configuration reads what was written.** Nested dictionary model (tree of association lists and lists); path functions mirrored branch by branch; laws by induction on paths.
* **C12 Containment test and lookup agree.** Refutation on list paths; positive theorem on pure dictionary paths.
* **C13 Configuration equivalence is an equivalence relation.** Recursive comparison on trees, equivalence laws by induction.
* **C14 Configuration differences are empty exactly for equal settings.** Flat dictionary as association list; characterisation of the difference dictionary.
* **C15 Target data specifications enumerate the full parameter product.** Cartesian product fold; In-characterisation, count, NoDup.
* **C16 Run directories are never overwritten.** File system as a set of names; loop over numbers; freshness and frame.
* **C17 Slurm job chunking covers every run exactly once.** Chunking function; concat (chunks) = input, sizes.
* **C18 Determining the state of a run always terminates.** File-system graph with fuel; refutation: self parent link never terminates; termination and priority otherwise.
* **C19 Slurm node lists are expanded completely.** String-level parser model; refutations for zero padding and several groups; round trip for the supported fragment.
* **C20 Each configured path translator is applied.** Closures over a shared variable; refutation; positive for one translator.
* **C21 Target status reflects the best matching run.** Status as a fold over runs.
* **C22 Analysis cache is crash consistent.** File-level operational model with crash points; refutation; positive: no crash implies read-your-writes.
* **C23 Nearest point lookup returns a nearest point.** Bisect model over sorted list; minimality.
* **C24 Simple moving average is the exact window mean.** Deque model; window characterisation.
* **C25 Local extrema are found exactly.** Fold over consecutive triples; iff characterisation.
* **C26 Ranges of equal sign partition the data.** Fold model; partition + uniformity + maximality.
* **C27 Thinning statistics keeps exactly every n-th entry.** Positions filter on sorted keys.
* **C28 Velocity autocorrelation analysis discards early measurements.** Row filter model; refutation with straddling row.
* **C29 Flow profiles of several runs are pooled exactly.** Fold over points, uses C01.
* **C30 Rotation about an axis is a rigid rotation.** Real-number vectors; Rodrigues formula algebra.
* **C31 Rotation of complex vectors is linear and length preserving.** Complex vectors as pairs; refutation.
* **C32 Projection and rejection decompose a vector.** Real vector algebra.
* **C33 Random unit vectors are unit vectors.** sin^2+cos^2=1.
* **C34 Moving to the centre-of-mass frame.** Lists of (mass, pos, vel); algebra over Qc/R.
* **C35 Gyration tensor is symmetric, translation invariant and positive semidefinite.** Sum algebra plus a small state machine for the cache.
* **C36 Star polymer particle numbering is a bijection.** nat div/mod arithmetic.
* **C37 Star polymer bonds form one tree per star.** Relation on nat indices; characterisation and tree counting.
* **C38 Analysis and simulation agree on the star structure.** Two models, equality theorem.
* **C39 Snapshot structure written by a simulation is accepted on restart.** Writer model producing types and bonds; compare to checker.
* **C40 Magnetic clusters are the connected components.** Set-merging model; union-find style connectivity proof; refutation for coincident particles.
* **C41 Potential energy is available for every star polymer.** Exception-valued model; refutation.
* **C42 VTF structure blocks survive a write/read cycle.** Line-level writer and reader.
* **C43 Atom range updates behave like a map.** Range list model; refinement to function nat -> option props.
* **C44 VTF timesteps survive a write/read cycle.** Token/line-level model.
* **C45 Lees-Edwards images lie in the primary box and are unique.** R with Int_part floor; lattice group action.
* **C46 Collision cell indices are valid and unambiguous.** nat arithmetic with floors.
* **C47 A collision step conserves mass, momentum and energy in each cell.** Finite sums over particle lists per cell, rotation lemma C30.
* **C48 Concurrent accumulation of cell properties is schedule independent.** Permutation invariance of fold of additions; interleaving as permutation of thread-local sequences.
* **C49 Every work unit is launched exactly once.** Launch loop over N with explicit 32-bit wrap; coverage by arithmetic; refutation near 2^32.
* **C50 Velocity-Verlet streaming conserves momentum and is time reversible.** Real vectors, step function iterated; invariants by induction on steps.
* **C51 Analytic dumbbell streaming is the exact harmonic flow.** Trigonometric identities.
* **C52 Solute forces obey Newton's third law.** Pair enumeration + force buffer as function; induction.
* **C53 Pair forces are the gradients of the pair potentials.** Derivatives in Coq Reals.
* **C54 Bunched and strided ranges enumerate the right elements.** List-level specification; arithmetic on indices.
* **C55 Normal mode correlation uses matching modes.** Uses C54 index characterisation; sums.
* **C56 The bit set behaves like an array of independent booleans.** N bit operations with Z.testbit lemmas; interleavings; constructor refutation (member initialisation order).
* **C57 The linear congruential generator has full period and never gets stuck.** Order of the multiplier from the factorisation of m-1 by computation, lifted to all seeds.
* **C58 Mean square displacement averages the recorded snapshots.** Ring buffer refinement to full snapshot history.
* **C59 Normal mode autocorrelation averages the recorded snapshots.** Same.
* **C60 Flow profile output blocks cover the configured number of sweeps.** State machine; invariant.
* **C61 Histograms account for every value.** Fold; counting invariant.
* **C62 Density profiles average over fills.** Fold.
* **C63 Device memory is freed exactly once.** Resource set state machine with event trace.
* **C64 Only the owner shuts down MPI.** Handle state machine with event trace.
* **C65 An existing run directory is never clobbered.** Directory content predicate.
* **C66 Command line errors are reported through the exit status.** Decision function; refutation.
* **C67 Bugs fixed later are recognised for every program version.** Graph reachability decision.
* **C68 Best fit selection returns the best attempt.** Fold; refutation for equality.
* **C100 Measured and predicted bonds of dumbbells in shear flow are comparable.** The cubic by factoring and the intermediate value theorem; its complex roots through their elementary symmetric functions; the dictionary of curves as a list with an invariant; sorting as a permutation that keeps runs with equal keys in order.
* **C101 The relaxation of normal modes is normalised by its value at time difference zero.** Reverse induction over the entries for the contents of the nested dictionaries, with keys in the order of appearance; sorting by insertion; words and lines of the written file from C55.
* **C102 Collections of points keep values and errors, and their files have what was saved.** Reverse induction over requests with the two dictionaries as invariant; sorting is a permutation; lines of the file through C87; extrema through C25, moving averages through C24.
* **C103 Static data are what the last line about them says.** A specification of the first occurrence of a string and of stripping; induction over lines.
* **C104 The instruments of a simulation measure every particle where it is in the primary box.** A specification of images through the sheared lattice, unique by uniqueness of division with remainder; the loops become lists of operations of the profiles, so that C28, C29 and C61 apply; double counting over cells for the total mass.
* **C105 The velocity autocorrelation is measured over all logical entities and between the right times.** Kernels as relations over all schedules; the buffers hold the velocities of the centers of mass, so the state after a list of calls corresponds to a list of references maintained by the documented procedure; induction over calls; in regular intervals, a closed form for the references.
* **C106 The table of velocity autocorrelations has one line for each time difference, with mean, error and number of data.** The text written by the simulation is parsed back line by line; then C62 gives the data per time difference, and sorting of the keys the order of the lines.
* **C107 Star polymers are made from their settings, or not at all.** The reads are characterised by paths in the tree of settings (C92); potentials and initial positions follow from C52 and C78; states in snapshots from C39, generalised to files with several states; memory that is not initialised is an arbitrary function.
* **C108 Vectors stored elsewhere act on their own elements only.** Memory is a function of addresses; every operation is a chain of point updates, so that each claim is decided by comparing addresses; loops by induction over the remaining iterations.
* **C109 Angles and products of vectors in the plane.** Lagrange's identity bounds the quotient; the angle is characterised by its cosine on the interval from 0 to pi.
* **C110 The C++ analysis library finds and reads the files and settings of runs.** The regular expression has one way to match, so that a scan decides it; the file that is opened is decided by cases; the loop over configurations by induction, with reading from C93.
* **C111 The program for transverse velocity correlation functions writes complete tables or reports an error.** C90 gives the data of each table; the texts are compared line by line; counts by wave vector are summed by exchanging sums.
* **C112 The interactive plotter reads the settings and points of data files.** The loop over lines is compared with a relation between lines, dictionaries and points by induction; directories by induction over the nesting.
* **C113 The interactive plotter shows the plots that are selected, and lists all of them.** An invariant about line objects and their owners is kept by each call; the columns are characterised by lemmas about the functions that collect names.
* **C114 Negative values are plotted dashed with their absolute values, errors as bands around them, and sliders move in steps.** The ranges of equal sign from C27 partition the values; the loop over ranges draws one piece each.
* **C115 Merged axes have all lines with their labels.** By induction over the axes.
* **C116 The data manager finds all runs, groups cluster nodes by GPUs and pending jobs by size.** A general lemma about dictionaries that group a list by a key; states and batch sizes of runs are those of C19.
* **C117 Selecting a project.** The search is characterised by the first index; the files' execution is an arbitrary function.
* **C118 The plotted flow profile, its error band and the predicted shear flow.** The loops over slices and entries are compared with maps; the statistics are those of C01, the coordinates those of C29.
* **C119 The arrows of the flow field.** Collected results are related to positions in both lists of keys.
* **C120 Plots of collections of statistics show the means in order, with the errors that were asked for.** The three loops of the function are compared with maps and filters over the data by key, sorted; the statistics are those of C01.
* **C121 Plots of accumulators, autocorrelations, mean square displacements and normal modes.** Blocks are those of C02, products those of C03; the optimal block is characterised as the first that meets the criterion, or else the last.
* **C122 Plots over shear rates show each run's measurement in the curve of its parameters.** A reader for gnuplot commands with inline data is specified separately, and run on the text that the scripts produce; the curves are characterised by the last run for each pair of keys.
* **C123 Plots over the Weissenberg number show the measurements in order, and the theory.** The reader of C122 is applied; the text of the second script is shown to be the same for any two theories.
* **C124 Decorrelation accumulators survive a round trip through text in C++, and other text is refused.** The format is specified as a relation between texts and accumulators; the reader is proved equivalent to it, and the writer to be in it, with the numbers of C81.
* **C125 Decorrelation accumulators in C++ and Python give the same statistics.** The functions are compared branch by branch, with a relation between exceptions; with C05, this gives the statistics of the data.
* **C126 Interactions of star polymers in device memory are the documented ones, and are destroyed completely.** Device memory is modelled with its arrays, objects, and the pointers stored in it; creation is proved to establish, and destruction to need, that the arrays hold pointers to different live objects.
* **C127 Star polymers leave nothing behind in device memory.** With C126 and a manager that keeps track of all buffers; exceptions unwind members, but do not run the destructor.
* **C128 Tables of settings have every setting, in order, and can be read back.** With the flat view of settings, the lines are proved to be the join of the sorted columns; a reader that splits at ends of lines and tabulators is the specification.
* **C129 Copies to and from device memory transfer exactly the elements, and errors are reported.** Memory is a function of addresses of bytes, with a list of allocations and the last error of the runtime; calls are functions on this state.
* **C130 Devices are identified by their addresses, and stack sizes that were set are returned.** The runtime is a list of devices, the active one, stack sizes and a pending error; hexadecimal digits are read by a separate specification.
* **C131 Plots of analyses of star polymers show the values under the right labels, and each analysis is registered once.** A plot is a list of labelled lines with points; values are numbers or lists that can be indexed; the registry is a list of names with objects.
* **C132 Runs are analysed together only if their wave vectors and simulation boxes agree, and wave vectors fit into the box.** Directories are lists of names and texts; headers are read as in C90's area (TvcModel); wave vectors are characterised by how often they fit into the box.
* **C133 Functions that set symbols on the device set exactly their symbols, and refuse boxes without extent.** The device is a map from symbols to values with a pending error, and a list telling which of the next copies fail; a call is described by the symbols it sets, all others being unchanged.
* **C134 Vectors of real numbers check their arguments, and tell whether they are equal or close.** Arguments are values of a small universe of types; closeness is specified without absolute values, by two inequalities for each coordinate.
* **C135 The scripts for normal modes and for mean square displacements write complete tables.** Tables are specified as lists of lines whose columns have tabs between them, over a product of lists of modes and times.
* **C136 plotDashedIfNegative.py plots one curve for each file.** Lines are specified as white space around two words, and curves by a relation between the points of a file and those that are shown; neither mentions how lines are split.
* **C137 Iterators over every so many elements stay within their arrays and refuse other uses.** Places are specified by addresses; increments by minima, and loops by a filter of the indices of the array.
* **C67 Program versions without known bugs are recognised.** Walking the history is specified by the ancestor relation; the table of bugs is arbitrary.
* **C68 Fits return what was fitted; the best fit is selected as documented; equality means equal state.** The object as an optional pair of vector and matrix; broadcasting as in numpy; the best fit as a fold.
* **C69 A collection of statistics holds exactly the data given per key.** Fold over the calls; per key the statistics object of C01 is that of the data given for the key.
* **C70 Flow profiles recorded by the simulation are read correctly by the analysis.** Writer of C60 composed with the reader of C29; refutation with a subdivided cell.
* **C71 Deprecated settings are translated on loading.** Heap model of C11; the translation as a sequence of assignments; refutation of independence by aliasing.
* **C72 Comparison of vectors is a strict total order.** Lexicographic comparison written out; order laws by cases.
* **C73 Rotating a collection turns each vector once.** Heap of vector objects; rotation as a fold over references; count of references gives the number of turns.
* **C74 Shape descriptors are those of the gyration tensor.** Eigenvalue routine as a parameter that returns a sorted orthogonal decomposition; descriptors by algebra.
* **C75 The rotation frequency of a rigidly turning body is its angular velocity.** Rigid velocities substituted; the inertia tensor is inverted by a parameter with its specification.
* **C76 The Eckart system of a rigid body is its body frame.** Eckart vectors of a rotated copy; uniqueness of the symmetric positive square root.
* **C77 Eckart conditions hold for deformed bodies.** Same model, arbitrary instances; the Eckart condition from the symmetry of the square root.
* **C78 Initial star configuration is complete and usable.** Initialisation loop as a list of assignments to the numbers of C36; distances by computation with the place of a particle.
* **C79 Timestep blocks that are malformed are rejected.** Line-by-line parser of timestep blocks, ordered and indexed; relation to the list of written positions.
* **C80 Bond lines add exactly the bonds they mention.** Bond ranges and chains in the structure block as sets of pairs; duplicates give an exception.
* **C81 Saved numbers are read back exactly.** Distance between numbers with a given number of digits; rounding to a number of digits gives the nearest; the text is read as the rounded number.
* **C82 Normal coordinates have the properties of normal modes.** Sums of cosines in closed form; discrete cosine transform and its inverse.
* **C83 A device buffer has room for its elements.** The allocation of C63 with the sizes as 32-bit numbers; the overflow as a witness.
* **C84 Sweeps, signals and the time limit.** The loop as a recursion over the iterations with the signals, the time and the failures of each; the specification says which iterations are done.
* **C85 Bond measurements record what their names say.** Each measurement as the list of values with the file they go to; per file the list of expected values; greedy intervals as an inductive relation.
* **C86 The snapshot file of a run has all snapshots.** The snapshot file as a list of states that each save empties.
* **C87 Stored histograms and other number pairs can be analysed.** Reader over all texts, as an inductive relation on lines; the file written by the histogram read back; bound on the mean by counting.
* **C88 Settings shared by several runs are found, and disagreements detected.** The loop over runs with the lookup of area Conf.
* **C89 Fourier-transformed velocities are those of all particles.** The stores of all threads as a list in any order; each element is stored once; reduction as a sum.
* **C90 Tables of transverse velocity correlations.** Text of the saved file split and read back; the map of wave vectors as a sorted list; pairs as a list combined with its own tail; rows by induction on strides.
* **C91 Script and program agree on transverse velocity correlations.** The same pairs from the accumulation by stride; scaling a vector does not change the perpendicular part.
* **C92 Setting values in a configuration.** Trees of settings, walked along the components of the name; setting is a replacement along a path; induction on the path.
* **C93 Reading values from a configuration.** Splitting the joined components gives them back; reading is walking the tree; concatenation of paths.
* **C94 Configurations that a simulation accepts.** Reading a setting succeeds if and only if the tree has it; sequences of statements as conjunctions; first kind of fluid in a list of kinds.
* **C95 Initial positions and velocities of a fluid.** Streams of random numbers; attempts are the multiples of the numbers used by one; the loop ends with the first N attempts that hold enough successes.
* **C96 Time series of star polymers.** Loop invariant: the times so far are those of the snapshots read; a countdown of steps for the sparse analyses; translation invariance of the gyration tensor.
* **C97 Cached results of star polymer analyses.** The round trip of the cache (C22); what is read comes from the interpreter of values.
* **C98 The energies drawn by the thermostat are gamma distributed.** The quick test: derivatives and the mean value theorem, an evaluation of exp by repeated squaring where it is tight, and Bernoulli's inequality for larger shapes; the densities by taking logarithms; the loops by induction over the rounds.
* **C99 Predictions of viscosity and self-diffusion follow the published formulas.** Algebra; positivity from exp(-M) >= 1-M and bounds on cos; the Python numbers by case analysis on whether they are integers.

## Trusted base

* The kernel of Coq 8.16.1 (with its virtual machine, which `vm_compute` uses on
  closed boolean goals), started with the flags in `rocq/_CoqProject`.
* The axioms that `Print Assumptions` lists for each theorem; the table below is
  generated from its output. All of them belong to the standard library: they
  come with its real numbers. There are no axioms of our own, no `Admitted`, no
  section-less variables, no functors, and no other library.
* The correspondence of the model to the code, which was checked by reading. Every
  definition cites the lines it models; the parts that are modelled, and the
  simplifications, are listed under "Modelled code". In particular floating point
  numbers are exact numbers, except where a section says otherwise.
* The reading of the properties as theorems. The notions in the statements are in
  the `XxxSpec.v` files, which do not use the model.

### Assumptions of each theorem

* Closed under the global context (no axioms): `otfs_history_correct`, `otfs_cpp_stream_correct`, `otfs_order_independent`, `otfs_partition_independent`, `otfs_variance_nonneg`, `otfs_serialization_roundtrip`, `otfs_unserialize_safe`, `otfs_empty_merge_refuted`, `otfs_empty_merge_neutral`, `otfs_empty_merge_big`, `ddda_stream_correct`, `ddda_block_data_length`, `ddda_merge_structure`, `ddda_self_merge_refuted`, `ddda_self_merge_no_waiting`, `ddda_self_merge_total`, `ddda_optimal_block`, `ddda_cpp_optimal_block`, `ddda_cpp_optimal_block_refuted`, `ddda_serialization_roundtrip`, `ddda_unserialize_reject`, `ddda_unserialize_accept`, `autocorr_stream_correct`, `autocorr_statistics`, `autocorr_lagged_products`, `autocorr_memory_bounded`, `data2d_nearest_point`, `data2d_moving_average_even`, `data2d_moving_average_uneven_refuted`, `data2d_local_maxima`, `data2d_local_minima`, `plot_equal_sign_ranges`, `collection_keep_every_nth`, `collection_add_data`, `vac_minimum_time_refuted`, `vac_content_exact`, `flow_profile_pooled`, `flow_global_pooled`, `flow_multi_block_profile_refuted`, `flow_blocks`, `flow_recording_accepts`, `histogram_counts`, `histogram_normalized`, `histogram_save_check_refuted`, `density_file`, `density_reduction`, `flow_simulation_to_analysis`, `flow_subdivided_unreadable_refuted`, `conf_set_read`, `conf_set_succeeds`, `conf_delete`, `conf_delete_succeeds`, `conf_alias_refuted`, `conf_contains_config`, `conf_contains_groups`, `conf_contains_list_refuted`, `conf_equiv_spec`, `conf_equiv_refl`, `conf_equiv_sym`, `conf_equiv_trans`, `conf_equiv_order`, `conf_flat_view`, `conf_differences`, `conf_differences_empty`, `conf_differences_swap`, `conf_equiv_no_differences`, `conf_no_differences_equiv_refuted`, `conf_canonicalize`, `conf_canonicalize_alias_refuted`, `targets_product`, `targets_describe`, `targets_fail`, `rundir_new`, `rundir_name`, `rundir_succeeds`, `rundirs_sequence`, `rundir_no_prefix_refuted`, `jobs_scripts`, `jobs_partition`, `jobs_refused`, `jobs_negative_refuted`, `state_documented`, `state_deterministic`, `state_prepared`, `state_relative_refuted`, `state_regenerated_refuted`, `nodes_total`, `nodes_simple`, `nodes_roundtrip`, `nodes_padding_refuted`, `nodes_two_ranges_refuted`, `nodes_empty_refuted`, `translator_single`, `translators_all_last`, `translators_refuted`, `target_completed`, `target_pending`, `target_monotone`, `target_groups`, `runs_filtered`, `runs_matching`, `cache_roundtrip`, `cache_other_state`, `cache_other_name`, `cache_crash_early`, `cache_crash_between`, `cache_crash_refuted`, `cache_truncated_refuted`, `cache_write_path_refuted`, `launch_all_once`, `launch_endless_default`, `launch_twice_refuted`, `bunch_elements`, `bunch_elements_refuted`, `strided_elements`, `pointer_advancing`, `bitset_array`, `bitset_concurrent`, `bitset_all_bits`, `bitset_room`, `bitset_room_refuted`, `minstd_full_period`, `minstd_32_refuted`, `minstd_seed_zero`, `star_numbering`, `star_numbering_order`, `star_numbering_analysis`, `star_bonds_tree`, `star_bonds`, `star_bonds_agree`, `star_snapshot_restart`, `star_snapshot_accepted`, `star_state_missing_refuted`, `vtf_roundtrip`, `vtf_names_refuted`, `vtf_whitespace_refuted`, `vtf_block_meaning`, `vtf_redefinition_refuted`, `vtf_debug_range`, `vtf_debug_refuted`, `py_vtf_roundtrip`, `py_reads_cpp`, `py3_write_refuted`, `py_vtf_newline_refuted`, `vtf_timestep_block`, `vtf_timestep_indexed`, `vtf_timestep_header_refuted`, `vtf_bond_twice`, `vtf_bond_undeclared`, `msd_values`, `msd_count`, `msd_analysis`, `msd_fit_times`, `msd_fit_maximum_refuted`, `nm_room`, `nm_python3_refuted`, `nm_room_refuted`, `device_memory`, `device_memory_free`, `device_memory_size`, `pointer_kinds`, `mpi_owner`, `mpi_not_owner`, `mpi_copy_refuted`, `mpi_use_refuted`, `mpi_threads_refuted`, `device_buffer_room`, `device_buffer_room_refuted`, `rundir_accepted`, `rundir_kept`, `option_errors_refuted`, `option_errors`, `exit_status`, `run_sweeps`, `run_saves`, `second_termination`, `early_save_fatal_refuted`, `star_snapshots`, `star_snapshots_refuted`, `chain_bond_lengths`, `chain_save_refuted`, `chain_configured`, `pairs_read`, `pairs_read_lines`, `pairs_minimum_refuted`, `open_file`, `histogram_mean`, `tan_2_chi`, `alignment_files`, `alignment_fallback_refuted`, `known_bugs`, `known_bugs_later`, `repository_description`, `repository_description_refuted`, `fit_called`, `fit_rejects`, `fit_bounds_refuted`, `fit_parameters`, `many_fits`, `single_fit`, `best_fit`, `fits_equal`, `fits_unfitted_refuted`, `fits_broadcast_refuted`, `fits_mixed`, `consistent_value`, `consistent_group_refuted`, `digits_needed`, `single_accumulator_refuted`, `chains_digits_refuted`, `python2_digits_refuted`, `fourier_launch_size`, `configuration_set`, `configuration_set_rejected`, `configuration_set_illegal`, `configuration_set_read`, `configuration_create`, `configuration_set_unsigned`, `configuration_set_unsigned_refuted`, `configuration_read`, `configuration_relative`, `configuration_illegal`, `configuration_illegal_refuted`, `configuration_children`, `configuration_lists`, `configuration_lists_refuted`, `configuration_read_all`, `configuration_assert`, `simulation_constructed`, `simulation_failures`, `simulation_volume`, `simulation_volume_refuted`, `simulation_deprecated_refuted`, `simulation_trimers_refuted`, `simulation_thermostat_refuted`, `analysis_cached`, `analysis_update`, `analysis_fails`, `analysis_stale_refuted`, `analysis_write_path_refuted`, `analysis_vectors_refuted`, `relaxation_series`, `relaxation_normalised`, `relaxation_normalised_refuted`, `relaxation_invalid`, `relaxation_format_refuted`, `points_table`, `points_error_refuted`, `points_saved`, `points_saved_same`, `points_saved_refuted`, `points_mean`, `points_average`, `points_extrema`, `points_plotted`, `static_data`, `instruments_constructed`, `instruments_constructed_fresh`, `instruments_located`, `instruments_measure`, `instruments_histogram`, `instruments_density`, `instruments_density_refuted`, `instruments_flow`, `instruments_images`, `instruments_images_refuted`, `instruments_other`, `instruments_saved`, `instruments_autosave`, `autocorrelation_velocities`, `autocorrelation_triplets_exact`, `autocorrelation_triplets_refuted`, `autocorrelation_records`, `autocorrelation_bounds`, `autocorrelation_configured`, `autocorrelation_regular`, `autocorrelation_regular_intervals`, `autocorrelation_procedure_refuted`, `autocorrelation_read_back`, `autocorrelation_script`, `autocorrelation_script_errors`, `autocorrelation_texts`, `autocorrelation_metadata_refuted`, `remote_assignment`, `remote_assignment_refuted`, `remote_get`, `file_opened`, `file_opened_refuted`, `files_found`, `data_files_found`, `data_files_once_refuted`, `properties_read`, `properties_documented_refuted`, `consistent_integer`, `consistent_failures`, `file_provided`, `file_refused`, `directory_provided`, `directory_readable`, `directory_each_file_refuted`, `file_dictionary_refuted`, `file_plots_kept_refuted`, `file_text_refuted`, `script_files_read`, `plotter_canvas`, `plot_toggled`, `plotter_list`, `list_sorted`, `list_sorting_kept`, `list_sorting_refuted`, `list_hiding_refuted`, `list_order_refuted`, `dashed_if_negative`, `error_bands`, `error_bands_log`, `error_bands_log_refuted`, `slider_value`, `slider_steps`, `axes_merged`, `axes_unmerged`, `axes_labels_refuted`, `runs_found`, `runs_initialised`, `cluster_nodes`, `nodes_grouped`, `nodes_no_cluster`, `batches_grouped`, `batches_succeed`, `runs_ignored_refuted`, `batches_refuted`, `runs_once_refuted`, `project_selected`, `project_selectable`, `project_unknown`, `project_failed`, `translator_below`, `translator_elsewhere`, `translator_sibling_refuted`, `project_failed_refuted`, `shear_profile`, `shear_profile_antisymmetric`, `shear_profile_integer`, `shear_profile_coordinates`, `arrows_shown`, `arrows_only`, `arrows_two_blocks`, `arrows_all_refuted`, `arrows_wide_refuted`, `diffusion_plot`, `curves_of_runs`, `bond_lengths_plot`, `bond_lengths_differ`, `bond_lengths_theory_only_refuted`, `bond_lengths_unfinished_refuted`, `alignment_plot`, `alignment_twice`, `xy_plot_refuted`, `xy_twice`, `ddda_text_accepted`, `ddda_text_unique`, `ddda_text_refused`, `ddda_text_undefined_refuted`, `ddda_text_inconsistent_refuted`, `ddda_cpp_largest`, `ddda_cpp_undefined_refuted`, `interactions_destroyed`, `table_saved`, `table_values`, `table_values_differ`, `table_reads_back`, `table_refused`, `table_reads_back_refuted`, `to_device_copies`, `to_host_copies`, `on_device_copies`, `round_trip`, `memory_zeroed`, `memory_compared`, `copies_refused`, `nothing_compared`, `copies_fail`, `pointers_told`, `copies_refuted`, `address_tells`, `address_format`, `address_format_refuted`, `address_refused`, `devices_known`, `no_device`, `stack_size`, `stack_size_refuted`, `main_memory`, `number_plotted`, `vector_plotted`, `angles_plotted`, `short_vectors_refused`, `class_registered`, `one_registry`, `analyses_registered`, `cache_files_distinct`, `registered_plotted_refuted`, `windows_plotted`, `waves_listed`, `boxes_agree`, `box_symbols`, `vector_made`, `vector_not_made`, `vector_equality`, `vector_close`, `close_refused`, `close_refuted`, `vector_scaled`, `vector_item`, `vector_iterated_refuted`, `modes_saved`, `modes_covered`, `middle_saved`, `displacements_saved`, `scripts_idle`, `metadata_ignored_refuted`, `metadata_refuted`, `file_curve`, `file_curves`, `shown_total`, `blank_refused`, `label_chosen`, `label_refuted`, `all_plotted_refuted`, `iterator_states`, `iterator_moves`, `iterator_stays`, `iterator_compared`, `range_loop`, `valid_refuted`, `advance_refuted`, `empty_range_refuted`.
* Axioms `ClassicalDedekindReals.sig_forall_dec`: `remote_vector_updates`, `correlation_tables_unreadable`, `cell_count_refuted`, `symbols_consistent_refuted`.
* Axioms `ClassicalDedekindReals.sig_forall_dec`, `FunctionalExtensionality.functional_extensionality_dep`: `products_correct`, `vector_order`, `centre_of_mass_correct`, `centre_of_mass_frame`, `centre_of_mass_frame_fails`, `gyration_tensor_facts`, `rotation_frequency_correct`, `eckart_rigid_body`, `eckart_construction_fails`, `lees_edwards_images`, `cell_indices`, `cell_index_documented`, `cell_indices_refuted`, `concurrent_additions`, `concurrent_termination`, `concurrent_contributions`, `eckart_conditions`, `eckart_mismatch`, `mode_autocorrelation`, `trimer_self_diffusion`, `trimer_intervals_unique`, `dumbbell_averages_recorded`, `transverse_times`, `initial_positions`, `multiplier_ratio_unique`, `series_values`, `series_standstill`, `series_rotation`, `series_eckart`, `series_sparse`, `series_wrong_count`, `series_times`, `series_times_refuted`, `dumbbell_ratio_python`, `dumbbell_multiplier`, `dumbbell_former_refuted`, `dumbbell_quick_refuted`, `dumbbell_quick_point`, `remote_updates`, `remote_complex_refuted`, `planar_equality`, `consistent_number`, `correlation_table_unfinished`, `waves_agree`, `waves_differ`, `compressed_refuted`, `no_runs`, `zero_symbols`, `number_symbols`.
* Axioms `ClassicalDedekindReals.sig_forall_dec`, `ClassicalDedekindReals.sig_not_dec`, `FunctionalExtensionality.functional_extensionality_dep`: `rotation_is_rotation`, `rotation_group`, `rotation_python`, `complex_rotation_refuted`, `complex_rotation_length`, `complex_rotation_real`, `projection_splits`, `normalized_unit`, `no_direction_fails`, `random_direction_unit`, `gyration_tensor_always`, `gyration_tensor_stale_refuted`, `rotate_collection`, `rotate_collection_refuted`, `rotate_collection_general`, `shape_descriptors`, `collision_momentum`, `collision_energy`, `collision_thermostat`, `collision_alone`, `collision_turns`, `concurrent_energies`, `cutoff_jump`, `streaming_momentum`, `streaming_total_momentum`, `streaming_reversible`, `streaming_order`, `streaming_succeeds`, `rods_fail`, `streaming_step`, `streaming_steps`, `streaming_no_steps`, `exact_streaming_conserves`, `exact_streaming_group`, `exact_streaming_motion`, `spring_parameters`, `star_potentials_agree`, `star_potentials_refuted`, `star_clusters`, `star_clusters_limit`, `star_clusters_refuted`, `star_initial`, `star_initial_refuted`, `normal_coordinates`, `nm_values`, `nm_analysis`, `nm_buffer_count_refuted`, `nm_values_requested_refuted`, `normal_coordinate_host`, `normal_mode_zero`, `normal_modes_shifted`, `normal_modes_default`, `normal_modes_default_refuted`, `rod_histogram`, `fourier_simple`, `fourier_groups`, `fourier_periodic`, `fourier_conjugate`, `transverse_parts`, `transverse_tables`, `transverse_incomplete`, `transverse_zero`, `transverse_script`, `transverse_script_cube`, `transverse_script_refuted`, `initial_velocities`, `initial_temperature`, `initial_temperature_divisor`, `initial_rods`, `initial_rods_end`, `initial_rods_endless_refuted`, `initial_dumbbells`, `initial_dumbbells_rejected`, `initial_dumbbells_second_refuted`, `initial_chains`, `initial_chains_refuted`, `series_shape`, `prediction_formulas`, `prediction_mean_free_path`, `prediction_one_dimension`, `prediction_script_invalid`, `dumbbell_ratio`, `dumbbell_predictions`, `dumbbell_relaxation_time`, `dumbbell_curves`, `stars_from_settings`, `stars_rejected`, `stars_potentials`, `stars_start`, `stars_start_refuted`, `stars_snapshot`, `stars_restart`, `stars_no_timestep_refuted`, `stars_missing_file`, `stars_other_structure`, `remote_values`, `remote_products`, `planar_products`, `planar_complex`, `correlation_program`, `correlation_program_nothing`, `correlation_program_errors`, `correlation_program_status`, `correlation_program_incomplete`, `correlation_tables_kept_refuted`, `correlation_program_silent_refuted`, `flow_plotted`, `flow_band`, `flow_band_negative`, `flow_band_refuted`, `collection_plot_means`, `collection_plot_errors`, `collection_plot_single`, `collection_plot_empty`, `collection_plot_arguments`, `collection_plot_two_regions_refuted`, `collection_plot_every_nth_refuted`, `accumulator_plot`, `autocorrelation_plot`, `autocorrelation_plot_refuted`, `displacement_plot`, `normal_mode_plot`, `normal_mode_plot_range`, `plot_error_unique`, `ddda_cpp_agrees`, `ddda_cpp_data`, `interactions_created`, `interactions_leave_nothing`, `interactions_refused`, `interactions_refused_refuted`, `stars_leave_nothing`, `stars_failed_early`, `stars_failed_late`, `stars_failed_refuted`, `wave_vector_fits`, `wave_vector_refused`, `dumbbell_symbols`, `failed_symbols`.
* Axioms `ClassicalDedekindReals.sig_forall_dec`, `ClassicalDedekindReals.sig_not_dec`, `Classical_Prop.classic`, `FunctionalExtensionality.functional_extensionality_dep`: `angle_correct`, `random_direction_all`, `line_angle_correct`, `force_is_minus_gradient`, `forces_opposite`, `potentials_documented`, `cutoff_continuous`, `cutoff_continuous_refuted`, `analysis_potentials`, `star_energy`, `star_energy_refuted`, `star_force_buffer`, `star_force_gradient`, `star_total_force`, `star_md_step`, `star_md_momentum`, `star_md_schedule`, `star_md_reversible`, `star_md_possible`, `star_md_impossible`, `trimer_histograms`, `trimer_xy2_refuted`, `dumbbell_histograms`, `digits_suffice`, `number_text_read`, `doubles_print`, `star_restart_double`, `accumulator_text_read`, `series_sparse_values`, `gamma_sampled`, `gamma_rounds`, `gamma_squeeze`, `gamma_any_shape`, `thermostat_energy`, `prediction_positive`, `prediction_python`, `prediction_python2_refuted`, `prediction_script_values`, `planar_angle`, `planar_angle_zero`, `ddda_text_read`.

## Modelled code

### Otfs (C01-C04)

* Modelled: `OnTheFlyStatistics.py`, `OnTheFlyStatistics.hpp` (both versions): construction, adding, merging, queries, serialisation.
* Simplified or left out: exact rationals; sample sizes are natural numbers; printing and parsing of numbers are parameters with a round trip hypothesis.

### Ddda (C05-C09)

* Modelled: `OnTheFlyStatisticsDDDA.py`, `OnTheFlyStatisticsDDDA.hpp`.
* Simplified or left out: exact rationals; the two parallel lists are one list of pairs; self-merging is modelled with its aliasing; 32-bit wrap of the C++ optimal block search is modelled.

### Autocorr (C10)

* Modelled: `Autocorrelation.py`.
* Simplified or left out: data of any type with any multiplicator.

### Conf (C11-C14, C71)

* Modelled: `Configuration.py` except file reading and `saveToParameterFile`.
* Simplified or left out: the library pylibconfig2 is described by what the header of `ConfModel.v` states.

### Runs (C15-C22)

* Modelled: `DataManager.py` (targets, job batches, runs), `Run.py`, `StarPolymersAnalysis/Cache.py`, on an abstract file system (`FsBase.v`).
* Simplified or left out: deprecated functions of `DataManager.py` l.642-855; YAML and number formatting are parameters; crash points are between the file operations.

### Data2D (C23-C27, C69)

* Modelled: `Data2D.py`, `PlotTools.findRangesOfEqualSign`, `OnTheFlyStatisticsCollection`.
* Simplified or left out: plotting.

### Flow (C29, C60, C70)

* Modelled: `FlowProfile.hpp/.cpp`, `FlowProfile.py`.
* Simplified or left out: exact arithmetic; plotting and fitting.

### Meas (C28, C61, C62)

* Modelled: `VelocityAutocorrelation.py`, `Histogram.cpp`, `DensityProfile.hpp/.cpp/.py`.
* Simplified or left out: exact arithmetic; the rounding of times is a parameter.

### Vec (C30-C33, C72)

* Modelled: `Vector3D.hpp`, `Vector3DReal.py`, `Vector3D.py`, random directions.
* Simplified or left out: exact real or complex numbers.

### Part (C34, C35, C73-C75), Eck (C76, C77)

* Modelled: `ParticleCollection.py`, `EckartSystem.py`.
* Simplified or left out: exact real numbers; matrix inversion, square root and eigenvalues of numpy/scipy are parameters with their mathematical specification.

### Sim (C45-C47)

* Modelled: `LeesEdwardsBoundaryConditions.*`, collision cells and the stochastic rotation step with thermostat in `Simulation.cpp/.cu`, `DeviceCode/Simulation.cu`.
* Simplified or left out: exact real numbers; random numbers are arbitrary parameters.

### Conc (C48)

* Modelled: `atomicAdd` by compare-and-swap and the kernels that add to shared cells.
* Simplified or left out: sequentially consistent memory, all interleavings; exact arithmetic.

### Cu (C49, C54, C56, C57)

* Modelled: launch macros, `BunchIteratorRange`, strided pointers, `Bitset`, linear congruential generators.
* Simplified or left out: hardware limits on grid sizes; wrap-around is modelled.

### Pot (C53)

* Modelled: pair potentials of simulation and analysis.
* Simplified or left out: exact real numbers.

### Md (C50, C51)

* Modelled: streaming of single particles, dumbbells, rods, chains, rings, trimers; exact harmonic streaming.
* Simplified or left out: exact real numbers; threads of different molecules in any order; numbers of particles do not overflow.

### Star (C36-C38, C40, C41, C52, C78)

* Modelled: `StarPolymers.cu` and its device code, `StarPolymers.py`, cluster analysis.
* Simplified or left out: cached results are recomputed; debug assertions; particle numbers do not overflow; forces are added in any interleaving.

### Vtf (C39, C42-C44, C79, C80)

* Modelled: `VTFSnapshotFile.hpp/.cpp`, `VTFSnapshotFile.py`, snapshot functions of `StarPolymers.cu`.
* Simplified or left out: number printing and parsing are parameters with a round trip hypothesis; files are strings; null pointers.

### Msd (C58)

* Modelled: `LogicalEntityMeanSquareDisplacement.cu` and `LogicalEntityMeanSquareDisplacement.py`: measuring, saving, reading, the times of fits.
* Simplified or left out: exact rationals; fewer than 2^32 sweeps and measurements; the centres of mass are given; compressed files and the comparison of configurations are left out.

### Nm (C55, C59, C82)

* Modelled: `NormalMode.hpp` on the host and on the device, `NormalMode.cu`, `NormalModeAutocorrelation.cpp` and `NormalModeAutocorrelation.py`: computation, autocorrelation, measuring, saving, reading.
* Simplified or left out: exact real numbers; fewer than 2^32 sweeps, measurements and coordinates; threads, which write to different places, run one after the other in any order; the comparison of configurations and cached results are left out.

### Res (C63, C64, C83)

* Modelled: `DeviceMemoryManager.cpp/.hpp`, `DeviceBuffer.hpp`, `MPI.cpp`.
* Simplified or left out: the CUDA runtime and the MPI library are described by `ResModel.v`; handles are not used by several threads.

### Main (C65, C66, C84, C86)

* Modelled: `main.cpp`: run directory, signals, loop, exit status; which files `Instrumentation.cpp` and the classes it calls write; `MPCSolute/Instrumentation/StarPolymers.cpp`.
* Simplified or left out: signals are seen at the next iteration; saving at the end does not fail; contents of the files other than the snapshots.

### Fit (C67, C68)

* Modelled: `Fit.py`; `ProgramVersionDatabase.py`.
* Simplified or left out: `scipy.optimize.curve_fit`, the comparison of numbers and pygit2 are parameters; arrays are lists; no attributes are added to `Fit` objects.

### Four (C89)

* Modelled: `FourierTransformedVelocity/*.cu` and `fourierTransformedVelocity.cu`.
* Simplified or left out: real numbers; the accesses of a thread to its own elements are not split.

### Tvc (C90, C91)

* Modelled: `FourierTransformedVelocity/Base.cpp` (files), `computeTransverseVelocityCorrelationFunction`, `transverseVelocityCorrelationFunction.py`.
* Simplified or left out: files are given by their contents, settings by their values; arithmetic is exact; the first four columns of the tables; Python 2.

### Cfg (C92, C93)

* Modelled: the C++ class `Configuration` with `Setting` and `List` (`Configuration.hpp`, `Configuration.cpp`).
* Simplified or left out: libconfig is modelled as a tree of settings; reading files, and copying (which goes through the text of the configuration), are left out; what libconfig makes of negative numbers that are read as unsigned is a parameter.

### Aq (C99)

* Modelled: `AnalyticQuantities.cpp`, `AnalyticQuantities_SimpleFluid.py`, `getSRDKinematicShearViscosityPrediction.py`.
* Simplified or left out: real numbers; Python's integers are kept apart from its floating-point numbers; the printed text of numbers is left out.

### Dum (C100)

* Modelled: `AnalyticQuantitiesGaussianDumbbell.cpp`, `DumbbellUtilities.py`, `plotMeanSquareBondComponents.py`, the predictions in `plotDumbbellXYCorrelation.py` and `plotDumbbellAlignment.py`.
* Simplified or left out: real numbers; what is read from the files of a run is given; numpy.roots is any function that returns the three roots; the text for gnuplot is left out except for titles and points.

### Rel (C101)

* Modelled: `getRelaxationTime.py`.
* Simplified or left out: rational numbers; the contents of data files are given (finding and decompressing them is in C87); the outer dictionary is visited in the order of insertion, the inner ones in any order; what is plotted is given by labels and points.

### Pts (C102, C103)

* Modelled: `Data2D.py` (what is not in Data2D), `StaticData.py`.
* Simplified or left out: rational numbers; square root, printing and reading numbers are parameters; division is that of Python 3; gnuplot is represented by the text that it is sent.

### Ins (C104)

* Modelled: `CUDA/Instrumentation.cpp`, `LeesEdwardsBoundaryConditions.cpp`, constructors of `DensityProfile`, `FlowProfile`, `Histogram` from settings.
* Simplified or left out: rational numbers; the magnitude of a vector is a parameter; `totalFluidVelocityMagnitudeVSTime`, which is never constructed, is left out; the instruments of fluid and solute are counted and their files are parameters; profiling and the printing of progress are left out.

### Vac (C105, C106)

* Modelled: `MPCFluid/Instrumentation/VelocityAutocorrelation/*.cu`, `getCenterOfMassVelocities_*` with their kernels, `velocityAutocorrelation.py`, reading in `VelocityAutocorrelation.py`.
* Simplified or left out: rational numbers; memory is a function from indices to numbers, uninitialised memory arbitrary; the printing of numbers is a parameter that is read back; that all run directories have the same configuration is assumed; the plotting of the script, which needs a display, is left out.

### Stp (C107)

* Modelled: the constructor in `MPCSolute/StarPolymers.cu`, constructor and destructor in `VTFSnapshotFile.cpp`.
* Simplified or left out: memory on the device and the instrumentation are left out; numbers of particles do not overflow; numbers in settings and files are of an abstract type with values in the real numbers, potentials are computed with real numbers.

### Rsv (C108, C109)

* Modelled: `RemotelyStoredVector.hpp`, `RemotelyStoredVector.cu`, `Vector2D.hpp`, `Vector2D_Implementation2.hpp`.
* Simplified or left out: real numbers; addresses do not overflow; atomic additions of one thread only (C48 is about several); conversions to and from `FP` do not change values.

### Ana (C110, C111)

* Modelled: `Analysis/src/MPCDAnalysis/File.cpp`, `Utilities.cpp`, `Utilities.hpp`; the program `computeTransverseVelocityCorrelationFunction` as a whole (`main.cpp`, `getWaveVectorsAndFiles.cpp`, `writePlotfiles.cpp`).
* Simplified or left out: no console output; boost::program_options is not modelled; exact numbers, whose texts are functions of their values; the columns about statistical errors are texts that depend on the data; decompressors are functions of the contents; files that are read are not written.

### Plo (C112–C115)

* Modelled: `InteractivePlotter/Plotter.py`, `PlotTools.py` (drawing and sliders), `MatplotlibTools/mergeAxes.py`, and the files that `transverseVelocityCorrelationFunction.py` writes.
* Simplified or left out: Python 2; of matplotlib only lines with points, style, colour and label; of the window only columns, cells and the sorted column; dictionaries keep the order of insertion; exact numbers; `float` and texts of numbers are parameters; other exceptions stand for FileFormatException, OutOfRangeException and IOError.

### Mgr (C116, C117)

* Modelled: `DataManager.py` l.39-236: the constructor, runs, nodes, pending job batches and projects.
* Simplified or left out: `expanduser`, `glob` and the execution of files are arbitrary functions; the configuration file is given as what is read from it, with all entries that its nodes and projects need; instances of `Run` are given by their paths, and all have the translators of the manager; dictionaries keep the order of insertion.

### Flp (C118, C119)

* Modelled: `FlowProfile.py` l.69-138, l.204-350: plots and the predicted flow.
* Simplified or left out: Python 2, where the variable of a list comprehension remains; exact numbers, roots as real numbers; of matplotlib only points, bounds and arrows; of the window's sliders only the chosen block and layer; dictionaries keep the order of insertion.

### Axs (C120, C121)

* Modelled: `OnTheFlyStatisticsCollection.py` l.107-271 and `getMPLAxes` of `OnTheFlyStatisticsDDDA.py`, `Autocorrelation.py`, `LogicalEntityMeanSquareDisplacement.py`, `NormalModeAutocorrelation.py`: plots of statistics.
* Simplified or left out: Of matplotlib only points, bars, regions and warnings; labels, colours and limits of axes are left out; exact numbers, roots as real numbers.

### Gnu (C122, C123)

* Modelled: `compareSelfDiffusionCoefficientMeasurementTimes.py`, `plotMeanSquareBondLengths.py`, `plotDumbbellAlignment.py`, `plotDumbbellXYCorrelation.py`: the text that gnuplot is sent.
* Simplified or left out: Exact arithmetic; square roots, printing and reading numbers and the ratio of multipliers are parameters; configuration files can be read and have the settings that are asked for, except where the script checks this; gnuplot is a specification of how it reads inline data.

### Cdd (C124, C125)

* Modelled: `include/OpenMPCD/ImplementationDetails/OnTheFlyStatisticsDDDA.hpp` l.19-143 and l.234-316, `OnTheFlyStatistics.hpp` l.103-109: text and statistics of accumulators in C++.
* Simplified or left out: For the text, finite doubles as in Dig; for statistics, exact numbers and real roots; reading beyond the end of a vector is an outcome of its own; characters at the end of a string are NUL, as in C++11.

### Dvi (C126, C127)

* Modelled: `include/OpenMPCD/CUDA/MPCSolute/ImplementationDetails/StarPolymers_Implementation.hpp` l.251-465, `src/OpenMPCD/CUDA/MPCSolute/StarPolymers.cu` l.193-313: interactions in device memory, and what becomes of it. The memory manager is the one of Res, and the values of potentials are those of Star.
* Simplified or left out: Kernels run when they are launched; `new` in device code succeeds; addresses are inputs that are only required not to be in use; where settings and snapshots make the constructor throw is an input (it is modelled in Stp).

### Prm (C128)

* Modelled: `Analysis/MPCDAnalysis/Configuration.py` l.265-329: `saveToParameterFile`. The flat view is that of Conf.
* Simplified or left out: Values of additional parameters are texts, numbers, truth values or None; how floating-point numbers are written is an input; writing the file succeeds.

### Cpy (C129)

* Modelled: `include/OpenMPCD/CUDA/ImplementationDetails/DeviceMemoryManager.hpp` l.21-131, `src/OpenMPCD/CUDA/DeviceMemoryManager.cpp` l.81-111, `include/OpenMPCD/CUDA/ImplementationDetails/DeviceBuffer.hpp` l.54-67: copies, zeroing and comparison of device memory, with the last error of the runtime.
* Simplified or left out: Host and device memory share one space of addresses; `cudaMemcpy` and `cudaMemset` fail, without changing memory, if the device side is not within one allocation or a pointer is of the wrong kind; copies on the device that overlap are excluded; host memory is accessible.

### Pci (C130)

* Modelled: `src/OpenMPCD/CUDA/Device.cpp` l.15-81, `src/OpenMPCD/SystemInformation.cpp` l.24-57: devices, their addresses and stack sizes, and main memory.
* Simplified or left out: `cudaGetDevice` and `cudaGetDeviceCount` succeed; which stack sizes the runtime accepts is an input; `getHostname` is not modelled.

### Sgp (C131)

* Modelled: `Analysis/MPCDAnalysis/StarPolymersAnalysis/*.py`: `getMPLAxesForValueAsFunctionOfTime`, `_getCacheFilename`, `Registry.py`, `__init__.py`, and the list of plots in `starPolymersAnalysisGUI.py`.
* Simplified or left out: matplotlib keeps the points it is given and refuses lists of different lengths; how plots are drawn is not modelled; classes are told apart by names and numbers.

### Wvk (C132)

* Modelled: `Analysis/transverseVelocityCorrelationFunction.py` l.34-94: wave vectors and boxes of several runs, with `openPossiblyCompressedFile` of `MPCDAnalysis/Utilities.py` l.42-51.
* Simplified or left out: Directories are lists of names and decompressed texts; sizes of boxes are given as integers; numbers are exact, and reading them is an input.

### Sym (C133)

* Modelled: `src/OpenMPCD/CUDA/DeviceCode/Symbols.cu` l.17-69, and the functions that set symbols in `Base.cu` of fluids and solutes, `LeesEdwardsBoundaryConditions.cu` l.9-15 and `GaussianDumbbells.cu` l.10-24.
* Simplified or left out: Real numbers are exact; which copies fail is an input, and a copy that fails leaves its symbol as it is.

### Vty (C134)

* Modelled: `Analysis/MPCDAnalysis/Vector3DReal.py` l.8-71, l.269-342, l.373-424, l.435-473: types of arguments, comparisons, products, ratios, and access by index.
* Simplified or left out: Floats are exact and finite; `bool` is an `int`; `numpy.allclose` is its documented inequality.

### Nms (C135)

* Modelled: `Analysis/NormalModeAutocorrelation.py` l.37-104, and `Analysis/LogicalEntityMeanSquareDisplacement.py` l.39-79: the files that the scripts write.
* Simplified or left out: Results of the analyses are texts, runs can be read, and files can be opened; the file of parameters, fits and plots are not modelled; the maximum time is not negative.

### Pdn (C136)

* Modelled: `Analysis/plotDashedIfNegative.py` l.42-65: reading the files, leaving out points, and labels.
* Simplified or left out: Numbers are exact and finite, and reading one from a word is a parameter; files can be opened; axes and legends are not modelled.

### Spi (C137)

* Modelled: `include/OpenMPCD/StridedPointerIterator.hpp` l.33-280 and `include/OpenMPCD/StridedPointerIteratorRange.hpp` l.31-55, on the host.
* Simplified or left out: Addresses count elements and do not overflow; the dereferencing operator of const instances, l.142-150, is not modelled: it returns the pointer in place of the element, and does not compile for most types.

### Gam (C98)

* Modelled: `CUDA/Random/Distributions/`, `generateCollisionCellMBSFactors`.
* Simplified or left out: real numbers; cuRAND is any generator of normal numbers and numbers from (0, 1]; that rejection and change of variables give the densities as stated is the usual theorem of probability, which is not itself formalised.

### Spa (C96, C97)

* Modelled: the analyses in `Analysis/MPCDAnalysis/StarPolymersAnalysis/` without `Registry.py`; when `main.cpp` and `Simulation.cu` write snapshots.
* Simplified or left out: real numbers; plotting is left out; the orientation angles and eigenvectors are not specialised (the theorem about every snapshot applies to them); the values of vectors are given by the texts of their components.

### Init (C95)

* Modelled: `MPCFluid/Base.cu` l.193-242 and the initialisation of particle positions in `Simple.cu`, `GaussianRods.cu`, `GaussianDumbbells.cu`, `GaussianChains.cu`, `HarmonicTrimers.cu`; `AnalyticQuantitiesGaussianDumbbell` Weissenberg number and multiplier ratio.
* Simplified or left out: real numbers; random numbers are given streams in [0, 1); the root of the cubic polynomial is a parameter with the property that it is a root; endless loops are fuel that never suffices.

### CfgSim (C94)

* Modelled: what `CUDA/Simulation.cu`, the factories of boundary conditions, fluids and solutes, and the constructors called by them read from the configuration.
* Simplified or left out: instruments of the fluids, memory and random numbers are left out; the constructor of star polymers, and whether a time step is a multiple of another, are parameters; the number of particles is computed exactly.

### Dig (C81)

* Modelled: Printing and reading of floating-point numbers as in `VTFSnapshotFile.cpp` l.51, l.205-213, `VTFSnapshotFile.hpp` l.506-517, `Graph.cpp`, `Histogram.cpp`, `ImplementationDetails/OnTheFlyStatistics.hpp` l.23-82, `GaussianChains.cpp` l.79-107, `OnTheFlyStatistics.py` l.203-204.
* Simplified or left out: `operator<<`, `lexical_cast` and `str` are modelled after the C and IEEE 754 standards: finite numbers, to nearest, ties to even.

### Cons (C88)

* Modelled: `Utilities.py` l.108-200.
* Simplified or left out: loading a configuration is a parameter; lookup is that of area Conf.

### Emp (C87)

* Modelled: `Utilities.py` l.5-106, `EmpiricalDistribution.py`, `DumbbellAlignment.py`; the text written by `Histogram.cpp`.
* Simplified or left out: exact arithmetic; no number is NaN; existing files can be opened; compressed files are represented by their decompressed text.

### Bond (C85)

* Modelled: `MPCFluid/Instrumentation/HarmonicTrimers.cpp`, `GaussianDumbbells.cpp`, `GaussianRods.cpp`, `GaussianChains.cpp` (same directory): measurement and saved values.
* Simplified or left out: exact arithmetic; histograms are represented by the values given to them; standard deviations by their squares; text of the files.

### Not modelled

* plots and fits that only call external libraries;
* memory transfers between host and device, CUDA error handling and hardware limits;
* the build system, the test suites, and the deprecated functions of `DataManager.py`;
* rounding of floating point operations.

## Findings

Behaviour of the code that contradicts its documentation or what a user would
expect; each is a theorem about the model.

* C04 `otfs_empty_merge_refuted`: merging an empty sample with nonzero variance changes the variance.
* C07 `ddda_self_merge_refuted`: merging an accumulator with itself loses the waiting datum.
* C08 `ddda_cpp_optimal_block_refuted`: the C++ class computes the cube of the block size as a 64-bit `size_t`; the cube of 2^22 is 0 there. It agrees with the documented choice below 2^24 data (`ddda_cpp_optimal_block`), but reports block 23 instead of 22 for some 2^24 data.
* C11, C71 `conf_alias_refuted`, `conf_canonicalize_alias_refuted`: configuration objects are shared when assigned; the two `cellSubdivision` settings become one object.
* C12 `conf_contains_list_refuted`: `in` fails on lists and on groups containing lists.
* C14 `conf_no_differences_equiv_refuted`: configurations without differences need not be equivalent.
* C16 `rundir_no_prefix_refuted`: without `rundirNamePrefix`, creating a run directory raises TypeError.
* C17 `jobs_negative_refuted`: a negative chunk size silently creates no jobs.
* C18 `state_relative_refuted`, `state_regenerated_refuted`: the state query can recurse without end through parent run directories.
* C19 `nodes_padding_refuted`, `nodes_two_ranges_refuted`, `nodes_empty_refuted`: node lists lose zero padding and second ranges; the empty list fails.
* C20 `translators_refuted`: of several path translators only the last is used (late binding).
* C22 `cache_crash_refuted`, `cache_truncated_refuted`, `cache_write_path_refuted`: a crash between writing metadata and data leaves an entry that is reported as present; `hasData` ignores the write path.
* C24 `data2d_moving_average_uneven_refuted`: the moving average is wrong for uneven spacing.
* C28 `vac_minimum_time_refuted`: the minimum time is checked for the second time only.
* C29 `flow_multi_block_profile_refuted`: a file with several blocks gives an empty profile.
* C31 `complex_rotation_refuted`: rotation of complex vectors does not keep lengths.
* C34, C76 `centre_of_mass_frame_fails`, `eckart_construction_fails`: shifting fails without velocities or mass.
* C35 `gyration_tensor_stale_refuted`: the cached tensor is stale if a returned vector is modified.
* C38, C52 `star_potentials_refuted`, `star_md_impossible`: bonds of magnetic particles to the core have no potential in the simulation.
* C39 `star_state_missing_refuted`: a snapshot without a timestep is silently accepted.
* C40 `star_clusters_refuted`: coincident magnetic particles are lost or not merged.
* C41 `star_energy_refuted`: no energy can be computed without magnetic particles.
* C42 `vtf_names_refuted`, `vtf_whitespace_refuted`: names with commas cannot be read back; names with white space change properties.
* C43 `vtf_redefinition_refuted`, `vtf_debug_refuted`: atom lines reset properties that are not listed; debug builds abort for some legal files.
* C44 `py3_write_refuted`, `py_vtf_newline_refuted`: Python 3 cannot write timesteps; a structure block without a final line break swallows the first timestep.
* C46 `cell_indices_refuted`: cell indices wrap from 2^32 cells on.
* C49 `launch_endless_default`, `launch_twice_refuted`: the launch loop does not end, or repeats units, for counts close to 2^32.
* C50 `rods_fail`: rods fail if bond partners meet.
* C53 `cutoff_continuous_refuted`: the Lennard-Jones potential jumps at the cutoff.
* C54 `bunch_elements_refuted`: bunched ranges beyond 2^32 elements revisit elements.
* C56 `bitset_room_refuted`: the storage size is computed from an uninitialised member.
* C57 `minstd_32_refuted`, `minstd_seed_zero`: with 32-bit `uint_fast32_t` the generator can get stuck at zero, and so does seed zero.
* C61 `histogram_save_check_refuted`: saving does not reject bin positions as documented.
* C70 `flow_subdivided_unreadable_refuted`: the analysis cannot read subdivided flow profiles.
* C73 `rotate_collection_refuted`: shared vector objects are rotated several times.
* C78 `star_initial_refuted`: without arms the core has no initial position; nor have further stars.
* C79 `vtf_timestep_header_refuted`: any first word is accepted as the header of a timestep.
* C58 `msd_fit_maximum_refuted`: fits leave out the largest time that was asked for.
* C59 `nm_buffer_count_refuted`, `nm_values_requested_refuted`, `nm_room_refuted`: the measurement of normal modes asks for a third of the elements it writes; this is harmless only since `DeviceBuffer` multiplies by the size of an element once too often, and harmful again where this product exceeds 32 bits.
* C59 `nm_python3_refuted`: no saved autocorrelation can be read in Python 3 (`file` does not exist).
* C82 `normal_modes_default_refuted`: with the default shift, odd normal modes depend on where the chain is.
* C64 `mpi_copy_refuted`, `mpi_use_refuted`, `mpi_threads_refuted`: copying an MPI handle finalizes MPI early and then ends the program; handles are useless after the first is destroyed, or after initialisation without thread support.
* C66 `option_errors_refuted`: the exit status is 0 if the command line cannot be parsed.
* C83 `device_buffer_room_refuted`: device buffers take the element size times more memory than needed, and, from 2^32 bytes on, too little, without an exception.
* C84 `early_save_fatal_refuted`: an early save whose directory cannot be created ends the simulation.
* C86 `star_snapshots_refuted`: after an early save, the last snapshot file lacks the snapshots saved before.
* C85 `trimer_xy2_refuted`: the XY histogram of the second bond of trimers has the x component of the first bond.
* C67 `repository_description_refuted`: on a branch whose name ends in +MODIFICATIONS, the repository is said to be modified, at another commit.
* C68 `fit_bounds_refuted`: bounds of the wrong length raise `TypeError`, not the documented `ValueError`.
* C68 `fits_unfitted_refuted`: comparing a fitted object to an unfitted one raises `TypeError`; the other way round it does not.
* C68 `fits_broadcast_refuted`: a fit with one parameter can equal a fit with several, by broadcasting.
* C81 `single_accumulator_refuted`: accumulators of `float` are serialized with 8 digits; 9 are needed to tell all numbers apart.
* C81 `chains_digits_refuted`: the squared bond lengths of chains are saved with six digits, unlike all other results.
* C81 `python2_digits_refuted`: in Python 2, serialized accumulators have twelve digits.
* C88 `consistent_group_refuted`: settings that are groups or lists never agree.
* C87 `pairs_minimum_refuted`: `readValuePairsFromFile` keeps keys that are at least `minXValue`; the documentation says smaller.
* C87 `alignment_fallback_refuted`: the older names of histogram files are never tried, since a missing file raises `ValueError`, not `IOError`.
* C85 `chain_save_refuted`: saving bond lengths of chains raises an exception if there are fewer than two data per bond.
* C91 `transverse_script_refuted`: the script projects velocities perpendicular to the integer components in place of the wave vector, which differs if the box is not a cube.
* C90 `transverse_zero`, `transverse_incomplete`: a wave vector of zero, or a maximum correlation time for which there are fewer than two pairs, ends the program before it has written the remaining tables.
* C92 `configuration_set_unsigned_refuted`: `Configuration::set` with an `unsigned int` from 2^31 on stores a negative `int`, since the check compares as `unsigned int`.
* C93 `configuration_illegal_refuted`: `Setting::has` answers false for an illegal name below a group that does not exist, in place of throwing.
* C93 `configuration_lists_refuted`: `getList` of a setting that is not a list throws another exception than documented; `Setting::getList` accepts it unless OPENMPCD_DEBUG is defined.
* C94 `simulation_volume_refuted`: the volume of the box is computed modulo 2^32; larger boxes silently get fewer particles.
* C94 `simulation_deprecated_refuted`: boundary conditions in the deprecated form (`type`, `shearRate`) are never accepted with dumbbells.
* C94 `simulation_trimers_refuted`: trimers with `analyticalStreaming` are accepted, but throw in the first streaming step.
* C94 `simulation_thermostat_refuted`: `bulkThermostat.type` is only read with dumbbells; other fluids accept any type.
* C95 `initial_chains_refuted`: all particles of a chain are placed at distance 1 from its first particle, not from their neighbours.
* C95 `initial_dumbbells_second_refuted`: the way to choose initial bonds, and the bond vector, are static variables: a second fluid of dumbbells in the same process gets those of the first.
* C95 `initial_rods_endless_refuted`: rods longer than the diagonal of the box are accepted and placing them never ends.
* C96 `series_times_refuted`: the analyses of star polymers assume a snapshot per time step, but one is written per sweep; with `mpc.sweepSize` other than 1 all times are wrong.
* C97 `analysis_stale_refuted`: cached results are returned even if the snapshots have changed.
* C97 `analysis_write_path_refuted`: with a separate path for writing, stored results are not found.
* C97 `analysis_vectors_refuted`: analyses of vectors return `Vector3DReal` objects the first time, and tuples once the result is cached.
* C99 `prediction_python2_refuted`: the Python functions use `/`, so with integer arguments in Python 2 the predicted viscosity can be 0.
* C100 `dumbbell_former_refuted`: `plotMeanSquareBondComponents.py` fails for every run of the former format, with NameError or ValueError.
* C100 `dumbbell_quick_refuted`: it fails with KeyError for every set of runs with a quick GPU run.
* C101 `relaxation_normalised_refuted`: `getRelaxationTime.py` divides by the mean for the time difference that comes first in a dictionary, which need not be 0; before Python 3.7 it can be any.
* C101 `relaxation_format_refuted`: it raises ValueError for the files that the simulation writes under the name it reads, except for chains of one particle; the format has changed.
* C102 `points_error_refuted`: `Data2D.addPoint` without an error leaves the error of an earlier addition at the same position in place, so that the new value is reported with the old error.
* C102 `points_saved_refuted`: `Data2D.save` writes three columns for points with errors; the constructor of `Data2D` ignores such lines, so that these points are lost.
* C102 `points_extrema`: `Data2D.getLocalExtrema` raises TypeError in Python 3, always (it adds two views of dictionaries).
* C104 `instruments_density_refuted`: the last column of the file of the density profile is the mass per subdivision, not the mass density as documented: with subdivisions, density times volume does not add up to the mass of the fluid.
* C104 `instruments_images_refuted`: the histogram of the magnitudes of velocities uses velocities without the correction for the layer, so that it depends on which image represents a particle; density and flow do not.
* C105 `autocorrelation_triplets_refuted`: the kernel for triplets uses the function for the velocities of doublets: the recorded values are those of pairs of particles 2k and 2k+1, and differ from the documented ones for every number of triplets.
* C105 `autocorrelation_procedure_refuted`: snapshots are renewed as soon as they are too old, also while there are fewer than snapshotCount of them, contrary to the documentation, which makes a difference for accepted configurations.
* C106 `autocorrelation_script`: if any time difference has a single datum, the script fails with RuntimeError, as the standard error cannot be computed, and after the table has been opened for writing.
* C106 `autocorrelation_metadata_refuted`: --metadataFilename is not ignored without --saveFilename, contrary to its help; names are written without escaping, so that the metadata do not determine the run directories.
* C107 `stars_start_refuted`: without an initial state, only the first star gets initial positions, and none if there are no arms; the others are uninitialised memory. Only with OPENMPCD_DEBUG is there an exception.
* C107 `stars_no_timestep_refuted`: an initial state whose file has the right structure but no timestep is accepted; positions are uninitialised memory.
* C107 `stars_restart`: if the file has several timesteps, as those of a simulation do, the simulation starts from the first one, not the last one.
* C107 `stars_missing_file`: if the file with the initial state does not exist, an empty one is created, and the exception is that of an invalid argument; the empty file is then found by later runs.
* C108 `remote_complex_refuted`: with complex elements, `RemotelyStoredVector::dot` does not conjugate the left-hand side, as those of `Vector2D` and `Vector3D` do, so that vectors other than zero can have magnitude zero.
* C108 `remote_assignment_refuted`: assignment between vectors whose storage overlaps, the destination starting after the source, repeats elements of the source. Vectors of the same array cannot overlap in this way.
* C110 `file_opened_refuted`: `MPCDAnalysis::File` fails with std::out_of_range for an existing file whose name has fewer than four characters (`filename.substr(filename.size() - 4)`).
* C110 `properties_documented_refuted`: `readNameValuePairs` separates at `#` in place of `=`, so that every line in the documented form `# name = value` is an error.
* C110 `data_files_once_refuted`: measurements that are present both as `0.data` and as `0.data.bz2` (or `0.data.bak`) are used twice by the program for transverse velocity correlation functions.
* C111 `correlation_tables_kept_refuted`: file names of tables have six significant digits, so that tables of wave vectors which agree in those overwrite each other.
* C111 `correlation_program_silent_refuted`: if output files cannot be opened, nothing is written, and the exit status is 0 nevertheless.
* C111 `correlation_table_unfinished`: with too few data for a time, the table that is left ends in the middle of a row.
* C112 `file_dictionary_refuted`: `Plotter.provideDataFile` has a mutable default argument, so that all files provided without a dictionary share one, and later files show the characteristics of the first.
* C112 `file_plots_kept_refuted`: a dictionary that is passed for several files is changed by each, and earlier plots change with it.
* C112 `file_text_refuted`: the texts of characteristics keep the blank after the equals sign and the end of the line.
* C112 `directory_each_file_refuted`: if a directory has `a` and `a.bz2`, both plots are of the compressed file.
* C112 `correlation_tables_unreadable`: the tables written by the C++ program for transverse velocity correlation functions contain the line `#`, and the plotter refuses every one of them.
* C113 `list_sorting_refuted`: the sorted column is remembered by number, so that hiding one characteristic changes by which other one the list is sorted.
* C113 `list_hiding_refuted`: if the number is no column any more, hiding characteristics fails with IndexError, and afterwards every change of the list fails.
* C113 `list_order_refuted`: `setCharacteristicsOrder` does not update the list.
* C114 `error_bands_log_refuted`: on a logarithmic scale, a lower bound of exactly zero is not replaced.
* C115 `axes_unmerged`, `axes_labels_refuted`: `mergeAxes` fails with AttributeError for axes without a legend, and gives texts to the wrong lines if a legend lacks a line.
* C116 `runs_ignored_refuted`, `batches_refuted`: matching directories that are not of runs are not ignored, contrary to the documentation, and a single one makes `getSubmittedJobBatchesGroupedByJobBatchSize` fail.
* C116 `runs_once_refuted`: runs that match two patterns are listed twice.
* C117 `project_failed_refuted`: if the file of a project cannot be executed, the project is nevertheless the current one, without its configuration.
* C117 `translator_sibling_refuted`: the path translator of projects also changes `/home/me/jobs-old/1` if the local directory is `/home/me/jobs`.
* C118 `flow_band_refuted`: the error band of the flow profile uses the number of samples of the last slice for all slices, through a variable that leaks from a list comprehension (with Python 3 it is a NameError).
* C118 `shear_profile_integer`: plotting the theory fails if the shear rate is written as an integer in the configuration.
* C119 `arrows_all_refuted`, `arrows_wide_refuted`, `arrows_two_blocks`: the arrows' y coordinates are taken from the x coordinates of the second output block, so that only square boxes with at least two blocks are shown completely.
* C120 `collection_plot_two_regions_refuted`, `collection_plot_every_nth_refuted`: floats for both errors draw two regions, although the documentation announces ValueError; `plotEveryNth` is ignored.
* C121 `autocorrelation_plot_refuted`: with its default arguments `Autocorrelation.getMPLAxes` raises RuntimeError whenever there are data, but fewer than the largest correlation time plus two.
* C121 `displacement_plot`, `normal_mode_plot`: a single time without measurement (or, with errors, with one only) makes the whole plot fail.
* C122 `bond_lengths_theory_only_refuted`: `plotMeanSquareBondLengths.py --theory=k,file` without runs sends a command without `plot`.
* C122 `bond_lengths_unfinished_refuted`: a theory file without final line end swallows the `e` that ends its data.
* C122 `curves_of_runs`: of two runs with the same parameters the earlier is silently dropped.
* C123 `xy_plot_refuted`: `plotDumbbellXYCorrelation.py` computes the theory (with the bond length of the last run only) but never draws it.
* C124 `ddda_text_undefined_refuted`: `unserializeFromString("1")` reads `parts[1]` before the number of fields is checked; the documentation announces InvalidArgumentException.
* C124 `ddda_text_inconsistent_refuted`: states that no data lead to, e.g. a second block with more data than the first, are accepted.
* C125 `ddda_cpp_undefined_refuted`: without OPENMPCD_DEBUG, statistics of blocks that there are not read beyond the end of a vector (as documented); Python raises ValueError.
* C126 `interactions_refused_refuted`: if the second or third allocation in `createInteractionsOnDevice` fails, the arrays that were allocated before are never released.
* C127 `stars_failed_refuted`, `stars_failed_late`: if the constructor of `StarPolymers` throws after creating the interactions, e.g. because the snapshot in `initialState` does not exist or does not fit, three arrays and ten objects in device memory are never released, as the destructor does not run.
* C128 `table_reads_back_refuted`: `saveToParameterFile` decides by `if headerLine` whether a separator is needed, so after a parameter with an empty name none is written: its value runs into the next value, and the column is lost. Tabulators in texts are not escaped either, and move the values after them.
* C129 `copies_refuted`: `isDeviceMemoryPointer` asks `cudaGetLastError`, so if an earlier call left `cudaErrorInvalidValue`, a pointer to device memory is said not to be one, and the earlier error is lost; debug builds then blame the pointer. `sizeof(T) * count` is not checked: with 2^61 elements of 8 bytes, nothing is copied and no error is reported.
* C130 `address_format_refuted`: `getPCIAddressString` is documented to have four digits for the domain, but for domains from 65536 on, as they occur in virtual machines, there are five or more.
* C130 `stack_size_refuted`: `getStackSizePerThread` and `setStackSizePerThread` use the device that is active at the time of the call, not the one the instance represents. If a size is refused, the error of the runtime stays pending, and the next call that checks for errors throws.
* C131 `registered_plotted_refuted`: `GyrationTensor` is registered like the other analyses, but has no `getMPLAxesForValueAsFunctionOfTime`, so that plotting all registered analyses raises an AttributeError.
* C132 `compressed_refuted`: `transverseVelocityCorrelationFunction.py` compares names of files along with wave vectors, so that a run of which the files are compressed is refused together with one of which they are not, though both can be opened under the same name. If a file is there both ways, its wave vector is listed twice.
* C133 `cell_count_refuted`: `setSimulationBoxSizeSymbols` is documented to set `collisionCellCount` to the product of the sizes, but the product is taken modulo 2^32; for a box of 65536 by 65536 by 1 there are 0 cells, and no exception, not even in debug builds.
* C133 `symbols_consistent_refuted`: if a copy after the first fails in `setSimulationBoxSizeSymbols`, sizes and number of cells do not belong together; if an error was pending before a call, the symbol is set, and an exception is thrown nonetheless.
* C134 `close_refuted`: `Vector3DReal.isClose` is documented to tell whether two vectors are close to each other, but with a relative tolerance of 1/2, (1, 0, 0) is close to (2, 0, 0), and (2, 0, 0) is not close to (1, 0, 0), since numpy takes the tolerance relative to the second argument.
* C134 `vector_iterated_refuted`: `Vector3DReal.__getitem__` raises a KeyError for the index 3, not an IndexError, by which Python ends iterations; `list(v)` and `f(*v)` raise a KeyError.
* C135 `metadata_ignored_refuted`: the help of `NormalModeAutocorrelation.py` says that `--metadataFilename` is ignored if `--saveFilename` is not set, but the file is written.
* C135 `metadata_refuted`: names of runs are put between quotation marks without escaping, so that the file of metadata for the runs `a` and `b` is the same as that for the one run `a","b`.
* C136 `all_plotted_refuted`: `plotDashedIfNegative.py` says that it plots the given files, but it leaves out all points whose first coordinate is zero or more than 1000.
* C136 `label_refuted`: `plotDashedIfNegative.py` labels curves by the digits 1 and 2 anywhere in the name of the file, so that `eta-16` is labelled by a viscosity of 8, and `run1` and `run12` have the same label.
* C137 `valid_refuted`: `StridedPointerIterator::isValid` throws an InvalidCallException for singular iterators, where it should return false; `a == b` is false and `b == a` throws if only `b` is singular.
* C137 `advance_refuted`: `StridedPointerIterator::operator+=` is documented to stop at the end, but throws an InvalidCallException if the iterator is there already, as the first step is taken before the end is looked for.
* C137 `empty_range_refuted`: a `StridedPointerIteratorRange` of no elements at a null pointer cannot be looped over: comparing `begin()` to `end()` throws an InvalidCallException.
