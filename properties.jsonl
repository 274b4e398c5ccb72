{"id": "C01", "title": "Streaming statistics equal batch statistics", "statement": "After any interleaving of addDatum, mergeSample and mergeSamples calls on an OnTheFlyStatistics object, the sample size, sample mean and sample variance it reports are exactly those of the multiset of all data ever fed into it or into the objects merged into it (exact arithmetic).", "quantifier": "for every finite tree of add/merge operations and all data values", "why_tests_cant": "Unit tests compare a handful of fixed data sets; the claim is about every operation history, including merges of empty and singleton samples, which take separate branches in the code.", "anchors": ["Analysis/MPCDAnalysis/OnTheFlyStatistics.py: OnTheFlyStatistics.addDatum, mergeSample, mergeSamples, getSampleMean, getSampleVariance", "include/OpenMPCD/OnTheFlyStatistics.hpp: OnTheFlyStatistics::addDatum"]}
{"id": "C02", "title": "Statistics do not depend on how data are partitioned or ordered", "statement": "Merging samples is commutative and associative as far as size, mean and variance are concerned, and splitting a data set into arbitrary parts, accumulating each part separately and merging gives the same size, mean and variance as accumulating everything in one object; the unbiased variance is never negative.", "quantifier": "for every data set, every permutation of it and every partition of it", "why_tests_cant": "There are exponentially many partitions and orders; tests exercise one or two.", "anchors": ["Analysis/MPCDAnalysis/OnTheFlyStatistics.py: mergeSample, mergeSamples, getSampleVariance, getStandardErrorOfTheMean"]}
{"id": "C03", "title": "Statistics state survives serialization", "statement": "unserializeFromString(serializeToString(x)) yields an object equal to x, for every state an object can reach through additions and merges, in Python and in C++; on any string that is rejected the object being read into keeps its previous value; and any string that is accepted leaves the object in a state that can describe data (no negative sum of squared deviations, zeros when empty).", "quantifier": "for every reachable statistics state and every input string", "why_tests_cant": "The set of strings and of states is infinite; tests try a few good strings and a few malformed ones.", "anchors": ["Analysis/MPCDAnalysis/OnTheFlyStatistics.py: serializeToString, unserializeFromString", "include/OpenMPCD/ImplementationDetails/OnTheFlyStatistics.hpp: serializeToString, unserializeFromString"]}
{"id": "C04", "title": "Empty samples are neutral in merges", "statement": "Merging a sample of size zero into any statistics object leaves the object's statistics, now and after any further data are added, unchanged, whatever mean and variance the empty sample was constructed with.", "quantifier": "for every statistics object and every constructor argument triple with sample size 0", "why_tests_cant": "The offending combination (size 1 target, size 0 source with non-zero variance) is a corner nobody writes a test for, yet it decides whether aggregated profiles are right.", "anchors": ["Analysis/MPCDAnalysis/OnTheFlyStatistics.py: OnTheFlyStatistics.__init__, mergeSample", "Analysis/MPCDAnalysis/FlowProfile.py: FlowProfile._addSampleToPoint"]}
{"id": "C05", "title": "DDDA blocks hold exactly the block averages", "statement": "After feeding N data one at a time, decorrelation block i of the dynamic distributable decorrelation accumulator contains exactly floor(N/2^i) data, namely the averages of the consecutive groups of 2^i input data, and its reported mean and variance are those of that list; a datum is kept waiting in block i exactly when the block's size is odd.", "quantifier": "for every input sequence of any length", "why_tests_cant": "Block structure changes at every power of two; a finite test suite fixes N.", "anchors": ["Analysis/MPCDAnalysis/OnTheFlyStatisticsDDDA.py: addDatum, _addDatum, hasBlockVariance, getBlockVariance", "include/OpenMPCD/ImplementationDetails/OnTheFlyStatisticsDDDA.hpp: OnTheFlyStatisticsDDDA<T>::addDatum"]}
{"id": "C06", "title": "Merging DDDA accumulators preserves the structure", "statement": "Merging two distinct accumulators yields an accumulator whose block sizes again satisfy size(i+1) = floor(size(i)/2), whose waiting data are present exactly in the odd-sized blocks, and whose overall size, mean and variance are those of the concatenated data; further data and merges keep all of this true.", "quantifier": "for every tree of additions and merges of distinct accumulators", "why_tests_cant": "The merge loop carries data across a data-dependent number of levels; only a structural induction covers every pair of lengths.", "anchors": ["Analysis/MPCDAnalysis/OnTheFlyStatisticsDDDA.py: merge"]}
{"id": "C07", "title": "A DDDA accumulator can be merged with itself", "statement": "Merging an accumulator with itself, which the documentation explicitly allows, has the same effect as merging it with an equal copy: no waiting datum is lost and block sizes stay consistent.", "quantifier": "for every accumulator state", "why_tests_cant": "Aliasing makes the outcome depend on whether a waiting slot is read after it was cleared; which states are affected is not visible from a few examples.", "anchors": ["Analysis/MPCDAnalysis/OnTheFlyStatisticsDDDA.py: merge"]}
{"id": "C08", "title": "Optimal block search never fails and returns the documented block", "statement": "The optimal block reported after any history of additions and merges of different accumulators is the smallest block b with (2^b)^3 > 2 N (se_b/se_0)^4, where N is the total number of data and se_b the standard error of the mean of block b; if no block qualifies it is the largest block for which a variance exists, and block 0 if there is none. The estimate is called reliable exactly when 50*2^b < N.", "quantifier": "for every history of additions and merges", "why_tests_cant": "The internal assertion relates the position of the last block with a variance to the block count; only an invariant shows it can never fire.", "anchors": ["Analysis/MPCDAnalysis/OnTheFlyStatisticsDDDA.py: getOptimalBlockIDForStandardErrorOfTheMean, optimalStandardErrorOfTheMeanEstimatorIsReliable", "include/OpenMPCD/ImplementationDetails/OnTheFlyStatisticsDDDA.hpp: getOptimalBlockIDForStandardErrorOfTheMean"]}
{"id": "C09", "title": "DDDA state survives serialization", "statement": "Serializing and unserializing a DDDA accumulator gives an accumulator equal to the original, with all blocks and all waiting data, for every reachable state.", "quantifier": "for every reachable accumulator", "why_tests_cant": "Number of blocks and pattern of waiting data vary with the history; there are unboundedly many.", "anchors": ["Analysis/MPCDAnalysis/OnTheFlyStatisticsDDDA.py: serializeToString, unserializeFromString", "include/OpenMPCD/ImplementationDetails/OnTheFlyStatisticsDDDA.hpp: serializeToString, unserializeFromString"]}
{"id": "C10", "title": "On-the-fly autocorrelation averages exactly the lagged products", "statement": "After feeding N data, the autocorrelation reported at lag tau is the average of x(t) x(t+tau) over all t with t+tau < N, for every lag up to the configured maximum, and lags with no such pair report no data; memory use stays bounded by the configured maximum.", "quantifier": "for every data sequence and every lag", "why_tests_cant": "The ring of remembered values is rotated on each call; off-by-one errors only show up for particular combinations of N and maximum lag.", "anchors": ["Analysis/MPCDAnalysis/Autocorrelation.py: Autocorrelation.addDatum, getAutocorrelation"]}
{"id": "C11", "title": "Configuration reads what was written", "statement": "After setting a configuration value, reading the same name returns that value, reading any name that is not a prefix or extension of it is unaffected, the name is contained in the configuration, and deleting it removes exactly it.", "quantifier": "for every configuration tree and every dotted name", "why_tests_cant": "Names have arbitrary nesting depth and the implementation creates intermediate groups on the way.", "anchors": ["Analysis/MPCDAnalysis/Configuration.py: __getitem__, __setitem__, __delitem__, __contains__"]}
{"id": "C12", "title": "Containment test and lookup agree", "statement": "A setting name is reported as contained exactly when looking it up succeeds, including names that address list elements such as a.[0].", "quantifier": "for every configuration and every setting name", "why_tests_cant": "Agreement of two independently written traversals over all trees and names is a relational claim no finite test settles.", "anchors": ["Analysis/MPCDAnalysis/Configuration.py: __contains__, __getitem__"]}
{"id": "C13", "title": "Configuration equivalence is an equivalence relation", "statement": "isEquivalent is reflexive, symmetric and transitive on configurations, does not depend on the order in which settings were defined, and holds exactly if both have the same settings with equal values once the path translators have been applied to string values.", "quantifier": "for all configurations and all lists of path translators", "why_tests_cant": "Symmetry and transitivity quantify over pairs and triples of arbitrary trees.", "anchors": ["Analysis/MPCDAnalysis/Configuration.py: isEquivalent"]}
{"id": "C14", "title": "Configuration differences are empty exactly for equal settings", "statement": "getDifferencesAsFlatDictionary returns precisely the flat names on which two configurations disagree (different value or present on one side only); it is empty if and only if both flat views are equal, and swapping the operands swaps the two components.", "quantifier": "for all pairs of configurations", "why_tests_cant": "Needs all pairs of nested dictionaries.", "anchors": ["Analysis/MPCDAnalysis/Configuration.py: getDifferencesAsFlatDictionary, getAsFlatDictionary"]}
{"id": "C15", "title": "Target data specifications enumerate the full parameter product", "statement": "For every list of parameter generators, the generated target specifications are exactly the combinations choosing one part from every generator, each combination once, in nested order (the last generator varies fastest); each specification has the settings of its parts applied in order, their path components concatenated, and the largest of their sweep counts; an exception means that the settings of some combination cannot be applied.", "quantifier": "for every list of parameters with any number of values", "why_tests_cant": "Number of parameters and of values is unbounded.", "anchors": ["Analysis/MPCDAnalysis/DataManager.py: getTargetDataSpecifications"]}
{"id": "C16", "title": "Run directories are never overwritten", "statement": "Creating a run directory either changes nothing or creates the directory with the smallest free number and writes the configuration there, leaving everything that existed untouched; in a sequence of requests all directories are different; with a name prefix configured it succeeds whenever a number is free. Without a name prefix it raises although numbers are free.", "quantifier": "for every pre-existing directory population and every sequence of requests", "why_tests_cant": "Depends on the whole directory state and history.", "anchors": ["Analysis/MPCDAnalysis/DataManager.py: createRundirByTargetDataSpecification", "src/OpenMPCD/main.cpp: createRundir"]}
{"id": "C17", "title": "Slurm job chunking covers every run exactly once", "statement": "Creating job scripts with a positive chunk size that divides the number of runs partitions the list of run directories into consecutive chunks of that size: every run is started by exactly one job, in order, with its own directory and options, the other runs of a chunk point to the first one, and no other file is touched; a size that does not divide is refused. A negative chunk size that divides the number of runs is silently accepted and creates no job.", "quantifier": "for every list of run directories and every chunk size", "why_tests_cant": "List length and chunk size are unbounded; off-by-one at chunk borders.", "anchors": ["Analysis/MPCDAnalysis/DataManager.py: createSlurmJobScripts"]}
{"id": "C18", "title": "Determining the state of a run always terminates", "statement": "The state reported for a run is the documented one (completed before running before the parent's state before submitted before ready), fresh runs given by absolute paths are ready after creating their job scripts. Termination fails: job scripts created for a relative path, or created again in another order, produce parent cycles for which asking the state recurses forever.", "quantifier": "for every combination of marker files and parent links", "why_tests_cant": "Parent links form a graph on the file system; termination is a property of all graphs.", "anchors": ["Analysis/MPCDAnalysis/Run.py: getState, _getParentRun", "Analysis/MPCDAnalysis/DataManager.py: createSlurmJobScripts"]}
{"id": "C19", "title": "Slurm node lists are expanded completely", "statement": "Parsing a node list always terminates; for lists of patterns with at most one range each and bounds without leading zeros it yields exactly the nodes denoted, and compacting then parsing a nonempty list of plain node names gives it back. In general it is wrong: zero padding is dropped, text from the second range on is dropped, and the empty list becomes one node with an empty name.", "quantifier": "for every node list", "why_tests_cant": "The node-list grammar has infinitely many instances; padding and several bracket groups are easy to miss.", "anchors": ["Analysis/MPCDAnalysis/DataManager.py: _parseSlrumNodeList, _makeSlurmNodeList"]}
{"id": "C20", "title": "Each configured path translator is applied (fails for several translators)", "statement": "With a single server-to-local translator, a path below the server prefix is translated. With several translators all of them act like the last one, so that paths below any other server prefix are not translated.", "quantifier": "for every list of translators and every path", "why_tests_cant": "With a single translator the defect is invisible; the claim is about lists of any length.", "anchors": ["Analysis/MPCDAnalysis/DataManager.py: DataManager.__init__ (pathTranslatorsServerToLocal)"]}
{"id": "C21", "title": "Target status reflects the sweeps of all matching runs", "statement": "The status reported for a target specification is completed exactly if the runs with an equivalent configuration together have at least the requested sweep count; otherwise it is pending exactly if one of them is running or submitted; adding further runs never turns completed into not completed; grouping by status partitions the specifications in order.", "quantifier": "for all run populations and specifications", "why_tests_cant": "Monotonicity over arbitrary sets of runs.", "anchors": ["Analysis/MPCDAnalysis/DataManager.py: getTargetDataSpecificationStatus, TargetDataSpecificationStatus"]}
{"id": "C22", "title": "Analysis cache returns what was stored, but is not crash consistent", "statement": "Data stored in the analysis cache without interruption are found for their metadata only and read back exactly, and data under other names are untouched; a crash before the metadata are complete is harmless. A crash between writing metadata and data makes old data pass for new ones, a crash while writing the data makes a truncated file pass as complete, and with a separate write path stored data are never found.", "quantifier": "for every sequence of store operations and every crash point", "why_tests_cant": "Tests do not kill the process between the individual file writes.", "anchors": ["Analysis/MPCDAnalysis/StarPolymersAnalysis/Cache.py: hasData, storeData, getData"]}
{"id": "C23", "title": "Nearest point lookup returns a nearest point", "statement": "Data2D.getNearestPoint returns a stored point whose x distance to the query is minimal, preferring the smaller x on ties, for every query position including outside the data range.", "quantifier": "for every non-empty data set and every query", "why_tests_cant": "Binary-search corner cases at both ends and at ties.", "anchors": ["Analysis/MPCDAnalysis/Data2D.py: getNearestPoint"]}
{"id": "C24", "title": "Simple moving average is the exact window mean", "statement": "The simple moving average at x is the arithmetic mean of exactly the points in the configured window (the shortest run of points ending at x and spanning the window size), and every input position with a complete window appears in the output. (True for evenly spaced points only; for uneven spacing the code is shown to violate it.)", "quantifier": "for every data set and window", "why_tests_cant": "Sliding-window bookkeeping depends on the spacing of all points.", "anchors": ["Analysis/MPCDAnalysis/Data2D.py: getSimpleMovingAverageDict"]}
{"id": "C25", "title": "Local extrema are found exactly", "statement": "The reported local maxima (minima) are precisely the stored points that are strictly larger (smaller) than each of their neighbours in x; points at the boundary, which lack a neighbour, are reported only on request, and are then compared with the one neighbour they have.", "quantifier": "for every data set", "why_tests_cant": "Needs all data sequences.", "anchors": ["Analysis/MPCDAnalysis/Data2D.py: getLocalMaxima, getLocalMinima"]}
{"id": "C26", "title": "Ranges of equal sign partition the data", "statement": "findRangesOfEqualSign splits the index range into consecutive, non-overlapping ranges that cover everything, are of uniform sign, and are maximal.", "quantifier": "for every sequence of values", "why_tests_cant": "Partition and maximality are universally quantified.", "anchors": ["Analysis/MPCDAnalysis/PlotTools.py: findRangesOfEqualSign"]}
{"id": "C27", "title": "Thinning statistics keeps exactly every n-th entry", "statement": "keepOnlyEveryNthDataPoint keeps precisely the data points at positions n, 2n, ... of the key-sorted collection and leaves their statistics untouched.", "quantifier": "for every collection and every n", "why_tests_cant": "Collection size and n are unbounded.", "anchors": ["Analysis/MPCDAnalysis/OnTheFlyStatisticsCollection.py: keepOnlyEveryNthDataPoint"]}
{"id": "C28", "title": "Velocity autocorrelation analysis discards early measurements", "statement": "With a minimum time set, no measurement involving a time smaller than that minimum contributes to the velocity autocorrelation.", "quantifier": "for every measurement file and every minimum time", "why_tests_cant": "Only measurements straddling the threshold reveal the defect.", "anchors": ["Analysis/MPCDAnalysis/VelocityAutocorrelation.py: _parse"]}
{"id": "C29", "title": "Flow profiles of several runs are pooled exactly", "statement": "Adding runs to a flow profile yields, at every y position, the size, mean and variance of the pooled samples of all points with that y in all runs.", "quantifier": "for all sets of runs, in any order", "why_tests_cant": "Order- and partition-independence over unbounded inputs.", "anchors": ["Analysis/MPCDAnalysis/FlowProfile.py: addRun, getFlowProfileAsFunctionOfY, _addSampleToPoint"]}
{"id": "C30", "title": "Rotation about an axis is a rigid rotation", "statement": "Rotating a real vector about a unit axis preserves lengths and scalar products, keeps the axis fixed, composes additively in the angle and is undone by the opposite angle.", "quantifier": "for all vectors, unit axes and angles", "why_tests_cant": "Continuum of inputs; tests use a few angles with tolerances.", "anchors": ["include/OpenMPCD/Vector3D.hpp: Vector3D::rotateAroundNormalizedAxis", "Analysis/MPCDAnalysis/Vector3DReal.py: getRotatedAroundNormalizedAxis"]}
{"id": "C31", "title": "Rotation of complex vectors is linear and length preserving", "statement": "Rotating a complex vector about a real unit axis preserves its length.", "quantifier": "for all complex vectors", "why_tests_cant": "The defect needs vectors with a non-real component along the axis.", "anchors": ["Analysis/MPCDAnalysis/Vector3D.py: getRotatedAroundNormalizedAxis", "include/OpenMPCD/Vector3D.hpp: Vector3D<std::complex<T>>::rotateAroundNormalizedAxis"]}
{"id": "C32", "title": "Projection and rejection decompose a vector", "statement": "For a non-zero reference vector, the projection onto it and the perpendicular part add up to the vector, are orthogonal, and projecting twice changes nothing; cross and scalar products satisfy their usual identities.", "quantifier": "for all vectors", "why_tests_cant": "Algebraic identities over the continuum.", "anchors": ["Analysis/MPCDAnalysis/Vector3DReal.py: getProjectedOnto, getPerpendicularTo, cross, dot", "include/OpenMPCD/Vector3D.hpp"]}
{"id": "C33", "title": "Random unit vectors are unit vectors", "statement": "The vector built from any two numbers in [0,1] has length one, so every random rotation axis the simulation draws is a valid axis.", "quantifier": "for every pair of numbers in the unit interval", "why_tests_cant": "Continuum of random draws.", "anchors": ["include/OpenMPCD/Vector3D.hpp: getUnitVectorFromRandom01"]}
{"id": "C34", "title": "Moving to the centre-of-mass frame", "statement": "shiftToCenterOfMassFrame leaves a collection with zero centre-of-mass position and velocity, does not change relative positions or velocities, and applying it twice is the same as once.", "quantifier": "for every collection of particles with positive masses", "why_tests_cant": "All particle counts, masses and coordinates.", "anchors": ["Analysis/MPCDAnalysis/ParticleCollection.py: shiftToCenterOfMassFrame, getCenterOfMass, getCenterOfMassVelocity"]}
{"id": "C35", "title": "Gyration tensor is symmetric, translation invariant and positive semidefinite", "statement": "The gyration tensor is symmetric, has non-negative quadratic form, does not change when all particles are shifted, its trace equals the squared radius of gyration, and the cached value always equals a recomputation whatever sequence of modifications preceded the query.", "quantifier": "for every collection and every sequence of modifications and queries", "why_tests_cant": "Cache coherence quantifies over all operation histories.", "anchors": ["Analysis/MPCDAnalysis/ParticleCollection.py: getGyrationTensor, setPositionsAndVelocities, rotateAroundNormalizedAxis, shiftToCenterOfMassFrame"]}
{"id": "C36", "title": "Star polymer particle numbering is a bijection", "statement": "Translating (star, arm, position) into a particle ID and back is the identity; every valid ID belongs to exactly one structural position, and the reported particle type matches that position.", "quantifier": "for all star counts, arm counts, arm lengths, with and without magnetic particles", "why_tests_cant": "Unbounded parameter space.", "anchors": ["Analysis/MPCDAnalysis/StarPolymers.py: getParticleStructureIndices, getParticleType", "include/OpenMPCD/CUDA/MPCSolute/ImplementationDetails/StarPolymers_Implementation.hpp: getParticleStructureIndices, getParticleType", "src/OpenMPCD/CUDA/MPCSolute/StarPolymers.cu: getParticleID"]}
{"id": "C37", "title": "Star polymer bonds form one tree per star", "statement": "The bond relation is symmetric and irreflexive, each star's particles are connected by exactly (particles per star - 1) bonds with the core linked to the first particle of each arm, and there are no bonds between stars.", "quantifier": "for all structure parameters", "why_tests_cant": "Unbounded parameter space.", "anchors": ["Analysis/MPCDAnalysis/StarPolymers.py: particlesAreBonded", "include/OpenMPCD/CUDA/MPCSolute/ImplementationDetails/StarPolymers_Implementation.hpp: particlesAreBonded"]}
{"id": "C38", "title": "Analysis and simulation agree on the star structure", "statement": "The Python analysis and the CUDA simulation compute the same particle types, structure indices, bonds and interaction-parameter classes for every particle pair.", "quantifier": "for all structure parameters and particle pairs", "why_tests_cant": "Relational equivalence of two code bases over unbounded inputs.", "anchors": ["Analysis/MPCDAnalysis/StarPolymers.py", "include/OpenMPCD/CUDA/MPCSolute/ImplementationDetails/StarPolymers_Implementation.hpp"]}
{"id": "C39", "title": "Snapshot structure written by a simulation is accepted on restart", "statement": "A structure block written for a star-polymer solute passes the compatibility check when the same solute reads it back.", "quantifier": "for all structure parameters", "why_tests_cant": "The writer enumerates stars and arms, the checker enumerates pairs of particles; they must agree for all parameters.", "anchors": ["src/OpenMPCD/CUDA/MPCSolute/StarPolymers.cu: writeStructureToSnapshot, snapshotStructureIsCompatible"]}
{"id": "C40", "title": "Magnetic clusters are the connected components", "statement": "getMagneticClusters returns the partition of the magnetic particles into connected components of the relation distance <= cutoff.", "quantifier": "for every configuration of magnetic particles and cutoff", "why_tests_cant": "Merging order and chains of clusters of any length; coincident particles.", "anchors": ["Analysis/MPCDAnalysis/StarPolymers.py: getMagneticClusters, _mergeClusters"]}
{"id": "C41", "title": "Potential energy is available for every star polymer", "statement": "The potential energy is the sum over unordered pairs of the pair interactions, and can be computed for stars with and without magnetic particles.", "quantifier": "for all structures", "why_tests_cant": "Which structures fail is a question about all parameter combinations.", "anchors": ["Analysis/MPCDAnalysis/StarPolymers.py: getPotentialEnergy"]}
{"id": "C42", "title": "VTF structure blocks survive a write/read cycle", "statement": "Reading a structure block written by the snapshot writer gives back the same number of atoms, the same properties for each atom, and the same bonds.", "quantifier": "for every sequence of atom and bond declarations", "why_tests_cant": "Declaration sequences are unbounded.", "anchors": ["src/OpenMPCD/VTFSnapshotFile.cpp: declareAtoms, declareBond, writeStructureBlock, readStructureBlock, readAtomLine, readBondLine"]}
{"id": "C43", "title": "Atom range updates behave like a map", "statement": "While reading a snapshot, an atom line for a range of IDs redefines exactly the given properties of exactly those atoms, atoms skipped over get the default properties, and all other atoms keep their properties; the internal range list stays contiguous.", "quantifier": "for every sequence of atom lines", "why_tests_cant": "Range splitting has many overlap cases; sequences compose them.", "anchors": ["src/OpenMPCD/VTFSnapshotFile.cpp: setAtomRange, assertAtomRangesContiguous, getAtomProperties"]}
{"id": "C44", "title": "VTF timesteps survive a write/read cycle", "statement": "Timesteps written by the Python snapshot class are read back with the same positions and velocities, and consecutive timesteps stay separated.", "quantifier": "for every sequence of timesteps", "why_tests_cant": "Unbounded sequences.", "anchors": ["Analysis/MPCDAnalysis/VTFSnapshotFile.py: readTimestep, writeTimestep", "src/OpenMPCD/VTFSnapshotFile.cpp: writeTimestepBlock, readTimestepBlock"]}
{"id": "C45", "title": "Lees-Edwards images lie in the primary box and are unique", "statement": "The Lees-Edwards image of any position lies in the primary simulation volume, imaging an image changes nothing, and two positions that differ by a (sheared) lattice vector have the same image; the velocity correction is proportional to the number of layers crossed, and host and device code agree.", "quantifier": "for all positions, times and shear rates", "why_tests_cant": "Continuum of positions, any number of layers.", "anchors": ["src/OpenMPCD/LeesEdwardsBoundaryConditions.cpp", "cudaDeviceCode/OpenMPCD/CUDA/DeviceCode/LeesEdwardsBoundaryConditions.cu"]}
{"id": "C46", "title": "Collision cell indices are valid and unambiguous", "statement": "Every position in the primary volume gets a cell index smaller than the number of cells, and two positions get the same index exactly if they are in the same unit cell.", "quantifier": "for all box sizes and positions", "why_tests_cant": "Continuum of positions, all box sizes.", "anchors": ["src/OpenMPCD/ImplementationDetails/Simulation.cpp: getCollisionCellIndex", "cudaDeviceCode/OpenMPCD/CUDA/DeviceCode/Simulation.cu: getCollisionCellIndex"]}
{"id": "C47", "title": "A collision step conserves mass, momentum and energy in each cell", "statement": "For every assignment of particles to cells and any rotation axes and angle, the stochastic-rotation collision leaves the total momentum of every cell unchanged, leaves the kinetic energy of every cell unchanged when no thermostat scaling is applied, and with scaling factor s multiplies the kinetic energy in the centre-of-mass frame of the cell by s squared.", "quantifier": "for every particle population, cell assignment, axis and angle", "why_tests_cant": "Conservation laws over all states; floating-point tests check tolerances on samples.", "anchors": ["src/OpenMPCD/ImplementationDetails/Simulation.cpp: collisionCellStochasticRotationStep1, collisionCellStochasticRotationStep2", "cudaDeviceCode/OpenMPCD/CUDA/DeviceCode/Simulation.cu"]}
{"id": "C48", "title": "Concurrent accumulation of cell properties is schedule independent", "statement": "The cell momenta, masses and force accumulations obtained with concurrent atomic additions do not depend on the order in which the threads' additions are interleaved (exact arithmetic).", "quantifier": "for every interleaving of the threads", "why_tests_cant": "The number of schedules is factorial in the number of particles.", "anchors": ["cudaDeviceCode/OpenMPCD/CUDA/DeviceCode/Simulation.cu: collisionCellContributions", "src/OpenMPCD/CUDA/MPCSolute/StarPolymers.cu: updateForceBuffer"]}
{"id": "C49", "title": "Every work unit is launched exactly once", "statement": "The kernel-launch loop dispatches every work unit index below the requested count to exactly one thread, across however many grid launches are needed, provided the loop terminates; it terminates for all counts that do not come within one full grid of 2^32.", "quantifier": "for every number of work units, grid and block size", "why_tests_cant": "Grid-size boundaries and 32-bit wrap-around are unreachable for tests.", "anchors": ["include/OpenMPCD/CUDA/Macros.hpp: OPENMPCD_CUDA_LAUNCH_WORKUNITS_SIZES_BEGIN"]}
{"id": "C50", "title": "Velocity-Verlet streaming conserves momentum and is time reversible", "statement": "Streaming bonded fluid particles (dumbbells, trimers, chains, rods) for any number of steps conserves total momentum, moves the centre of mass uniformly, and reversing all velocities and streaming again retraces the trajectory.", "quantifier": "for all initial states, spring constants, step sizes and step counts", "why_tests_cant": "Any number of steps, continuum of states.", "anchors": ["cudaDeviceCode/OpenMPCD/CUDA/MPCFluid/DeviceCode/GaussianDumbbells.cu, GaussianChains.cu, GaussianRods.cu, HarmonicTrimers.cu", "cudaDeviceCode/OpenMPCD/CUDA/DeviceCode/VelocityVerlet.cu"]}
{"id": "C51", "title": "Analytic dumbbell streaming is the exact harmonic flow", "statement": "Analytic streaming of a Gaussian dumbbell conserves momentum and energy, and streaming for t1 and then t2 equals streaming for t1+t2.", "quantifier": "for all states, frequencies and time steps", "why_tests_cant": "Continuum of states.", "anchors": ["cudaDeviceCode/OpenMPCD/CUDA/MPCFluid/DeviceCode/GaussianDumbbells.cu: streamDumbbellAnalytically"]}
{"id": "C52", "title": "Solute forces obey Newton's third law", "statement": "In every MD step of the star-polymer solute each unordered particle pair contributes exactly once and with opposite forces to its two members, so the total force vanishes and total momentum is conserved over any number of steps.", "quantifier": "for all particle counts, states and thread schedules", "why_tests_cant": "All pairs in all system sizes and all schedules.", "anchors": ["src/OpenMPCD/CUDA/MPCSolute/StarPolymers.cu: performMDTimestep, updateForceBuffer, velocityVerletKernel1, velocityVerletKernel2"]}
{"id": "C53", "title": "Pair forces are the gradients of the pair potentials", "statement": "For every potential the force the simulation applies is minus the gradient of the potential it (and the analysis) reports, is antisymmetric under exchange of the particles, and cutoff potentials vanish continuously at the cutoff.", "quantifier": "for all separations in the domain and all parameters", "why_tests_cant": "Derivatives over the continuum.", "anchors": ["include/OpenMPCD/PairPotentials/*.hpp", "Analysis/MPCDAnalysis/PairPotentials/*.py"]}
{"id": "C54", "title": "Bunched and strided ranges enumerate the right elements", "statement": "A bunch range visits exactly the elements whose index modulo (bunch size + gap) is smaller than the bunch size, in order, and none past the end; a strided range visits exactly the multiples of the stride.", "quantifier": "for all range lengths, bunch and gap sizes, strides", "why_tests_cant": "Unbounded sizes, boundary cases at incomplete bunches.", "anchors": ["include/OpenMPCD/CUDA/BunchIteratorRange.hpp", "include/OpenMPCD/CUDA/StridedIteratorRange.hpp", "include/OpenMPCD/StridedPointerIterator.hpp"]}
{"id": "C55", "title": "Normal mode correlation uses matching modes", "statement": "The average normal-coordinate autocorrelation of mode p equals the average over chains of the scalar product of that chain's p-th normal coordinates at both times.", "quantifier": "for all chain lengths, chain counts and modes", "why_tests_cant": "Index arithmetic over unbounded sizes.", "anchors": ["src/OpenMPCD/CUDA/NormalMode.cu: getAverageNormalCoordinateAutocorrelation", "include/OpenMPCD/CUDA/DeviceCode/ImplementationDetails/NormalMode.hpp"]}
{"id": "C56", "title": "The bit set behaves like an array of independent booleans", "statement": "Setting a bit changes that bit only, concurrent sets of different bits do not interfere whatever the interleaving, and the storage always has room for every declared bit.", "quantifier": "for all bit counts, all sequences and interleavings of operations", "why_tests_cant": "Interleavings and all sizes.", "anchors": ["include/OpenMPCD/CUDA/ImplementationDetails/Bitset.hpp"]}
{"id": "C57", "title": "The linear congruential generator has full period and never gets stuck", "statement": "For every seed in 1..m-1 the minimal-standard generators produce values in 1..m-1 only, never overflow, and visit every one of these values exactly once before repeating.", "quantifier": "for every seed and every number of draws", "why_tests_cant": "The period is 2^31-2.", "anchors": ["include/OpenMPCD/CUDA/Random/Generators/LinearCongruent.hpp", "include/OpenMPCD/CUDA/Random/Generators/minstd.hpp"]}
{"id": "C58", "title": "Mean square displacement averages the recorded snapshots", "statement": "The mean-square-displacement measurement reports, for each lag, the average over exactly the snapshot pairs separated by that lag, for any number of measurements, although only a fixed number of snapshots is kept.", "quantifier": "for any number of measurements and any maximum lag", "why_tests_cant": "Ring-buffer indices wrap arbitrarily often.", "anchors": ["src/OpenMPCD/CUDA/MPCFluid/Instrumentation/LogicalEntityMeanSquareDisplacement.cu: measure, getMeanSquareDisplacement"]}
{"id": "C59", "title": "Normal mode autocorrelation averages the recorded snapshots", "statement": "Same for the normal-mode autocorrelation measurement: each lag's average is over exactly the snapshot pairs separated by that lag.", "quantifier": "for any number of measurements and any maximum lag", "why_tests_cant": "Ring-buffer indices wrap arbitrarily often.", "anchors": ["src/OpenMPCD/CUDA/MPCFluid/Instrumentation/NormalModeAutocorrelation.cpp: measure, getAutocorrelation, save, constructor", "Analysis/MPCDAnalysis/NormalModeAutocorrelation.py: _parse, getAutocorrelation"]}
{"id": "C60", "title": "Flow profile output blocks cover the configured number of sweeps", "statement": "Each completed output block of a flow profile contains exactly the data recorded during its configured number of consecutive sweeps, no sweep is lost or counted twice.", "quantifier": "for any number of sweeps and any block size", "why_tests_cant": "Unbounded number of sweeps.", "anchors": ["src/OpenMPCD/FlowProfile.cpp: newSweep", "include/OpenMPCD/FlowProfile.hpp"]}
{"id": "C61", "title": "Histograms account for every value", "statement": "Every value filled into a histogram is counted exactly once, as underflow, overflow or in the one bin whose range contains it; the normalized graph integrates to one and rejects abscissa positions outside the bin.", "quantifier": "for all value sequences and bin layouts", "why_tests_cant": "All values and layouts.", "anchors": ["src/OpenMPCD/Histogram.cpp"]}
{"id": "C62", "title": "Density profiles average over fills", "statement": "The written density at each point is the total mass deposited there divided by the number of fills.", "quantifier": "for every sequence of deposits and fills", "why_tests_cant": "Unbounded histories.", "anchors": ["src/OpenMPCD/DensityProfile.cpp", "include/OpenMPCD/DensityProfile.hpp"]}
{"id": "C63", "title": "Device memory is freed exactly once", "statement": "Every buffer obtained from the device memory manager is released exactly once (by the user or, with automatic freeing, on destruction); freeing a foreign or already freed pointer is rejected without effect.", "quantifier": "for every sequence of allocations and frees", "why_tests_cant": "All histories.", "anchors": ["src/OpenMPCD/CUDA/DeviceMemoryManager.cpp"]}
{"id": "C64", "title": "Only the owner shuts down MPI", "statement": "MPI is finalized exactly once, by the object that initialized it, however many MPI handles are created and destroyed, in any order.", "quantifier": "for every sequence of constructions and destructions", "why_tests_cant": "All lifetimes.", "anchors": ["src/OpenMPCD/MPI.cpp"]}
{"id": "C65", "title": "An existing run directory is never clobbered", "statement": "The simulation refuses to run in an existing directory unless it contains nothing but the prepared input.", "quantifier": "for every directory content", "why_tests_cant": "All directory contents.", "anchors": ["src/OpenMPCD/main.cpp: createRundir"]}
{"id": "C66", "title": "Command line errors are reported through the exit status", "statement": "When the command line cannot be parsed the program exits with a failure status.", "quantifier": "for every command line", "why_tests_cant": "All command lines.", "anchors": ["src/OpenMPCD/main.cpp: main"]}
{"id": "C67", "title": "Program versions without known bugs are recognised", "statement": "A program version is reported free of known bugs exactly if for every known bug, the fixing commit is known and is that version or one of its ancestors; so versions built on such a version are reported free of known bugs, too. The description of the current state of the repository is the id of the current commit, with suffixes exactly if tracked files are modified, or if there are untracked files that are not ignored.", "quantifier": "for every commit graph, bug list, and repository status", "why_tests_cant": "All graphs; there are no tests.", "anchors": ["Analysis/MPCDAnalysis/ProgramVersionDatabase.py"]}
{"id": "C68", "title": "Fits return what was fitted; the best fit is selected as documented; equality means equal state", "statement": "A fit with valid arguments passes data, errors and bounds on to the optimiser and stores its results; invalid arguments raise the documented exceptions and leave earlier results as they were. Parameters, variances and covariances are available by index after a fit; before it, and with invalid indices, the documented exceptions are raised. Fitting several data sets gives the individual fits in order, and the best of them is found as documented: by a measure, it is the first one with the smallest. Two fits are equal exactly if they have the same state, and comparing them never fails.", "quantifier": "for every optimiser, all data sets, bounds, indices, comparators and fit results", "why_tests_cant": "All lists; equality between fitted and unfitted objects, and between fits with different numbers of parameters.", "anchors": ["Analysis/MPCDAnalysis/Fit.py"]}
{"id": "C69", "title": "A collection of statistics holds exactly the data given per key", "statement": "After any sequence of addData calls with numbers and statistics objects, the statistics reported for a key are those of exactly the data given for that key, directly or through merged statistics objects, and exactly the mentioned keys exist.", "quantifier": "for every sequence of calls, every mix of numbers and statistics objects, every key", "why_tests_cant": "Depends on arbitrary interleavings of keys and merges.", "anchors": ["Analysis/MPCDAnalysis/OnTheFlyStatisticsCollection.py: addData, getData"]}
{"id": "C70", "title": "Flow profiles recorded by the simulation are read correctly by the analysis", "statement": "Reading the flow profile file written by the simulation yields, at every y position, the size, mean and variance of exactly the velocities the simulation recorded there, whatever cell subdivision is configured.", "quantifier": "for all recording histories, box sizes and subdivisions", "why_tests_cant": "Two programs in two languages and arbitrary recording histories; the default subdivision hides the defect.", "anchors": ["src/OpenMPCD/FlowProfile.cpp: saveToFile, printOutputBlock", "Analysis/MPCDAnalysis/FlowProfile.py: addRun"]}
{"id": "C71", "title": "Deprecated settings are translated on loading", "statement": "Loading a configuration moves the deprecated boundaryConditions.type/shearRate and instrumentation.cellSubdivision settings to their new names with the same values, leaves every unrelated setting as it was, leaves configurations without deprecated settings alone, and applying it again changes nothing; the resulting settings are independent of one another.", "quantifier": "for every configuration", "why_tests_cant": "Which settings coexist, and at which nesting depth, is unbounded; independence of the results needs all later assignments.", "anchors": ["Analysis/MPCDAnalysis/Configuration.py: _canonicalize"]}
{"id": "C72", "title": "Comparison of vectors is a strict total order", "statement": "Comparing vectors with operator< orders them lexicographically by x, then y, then z: no vector is less than itself, the comparison is transitive, and of two different vectors exactly one is less than the other, so that vectors can be used as keys of ordered containers.", "quantifier": "for all pairs and triples of vectors", "why_tests_cant": "Order axioms quantify over all triples of vectors.", "anchors": ["include/OpenMPCD/Vector3D.hpp: Vector3D::operator<"]}
{"id": "C73", "title": "Rotating a collection turns each vector once", "statement": "Rotating a particle collection about a unit axis rotates every position and every velocity exactly once by the given angle, also if the same vector object was passed for several particles.", "quantifier": "for every collection, axis and angle", "why_tests_cant": "Sharing patterns of the vector objects are unbounded.", "anchors": ["Analysis/MPCDAnalysis/ParticleCollection.py: rotateAroundNormalizedAxis, setPositionsAndVelocities"]}
{"id": "C74", "title": "Shape descriptors are those of the gyration tensor", "statement": "The principal moments returned are the eigenvalues of the gyration tensor in ascending order; squared radius of gyration, asphericity, acylindricity and relative shape anisotropy are the documented combinations of them, non-negative, the anisotropy at most one, and the radius equals the mean squared distance to the centre. The angle between two lines given by vectors lies between zero and ninety degrees.", "quantifier": "for every collection of particles", "why_tests_cant": "Holds for all configurations; tests use a few polymers with tolerances.", "anchors": ["Analysis/MPCDAnalysis/ParticleCollection.py: getGyrationTensorPrincipalMoments, getRadiusOfGyrationSquared, getAsphericity, getAcylindricity, getRelativeShapeAnisotropy"]}
{"id": "C75", "title": "The rotation frequency of a rigidly turning body is its angular velocity", "statement": "For particles turning rigidly about their centre of mass with angular velocity w, the angular momentum is the moment of inertia tensor times w, and the rotation frequency vector is w.", "quantifier": "for all bodies and angular velocities", "why_tests_cant": "Continuum of shapes and angular velocities.", "anchors": ["Analysis/MPCDAnalysis/ParticleCollection.py: getMomentOfInertiaTensor, getAngularMomentum, getRotationFrequencyVector"]}
{"id": "C76", "title": "The Eckart system of a rigid body is its body frame", "statement": "For an instantaneous configuration that is a rotated and shifted copy of the reference, the Eckart frame consists of the rotated coordinate axes, the equilibrium positions are the rotated reference positions about the centre, and if the body moves and turns rigidly its Eckart angular velocity is its angular velocity.", "quantifier": "for all spatial reference configurations, rotations, shifts and velocities", "why_tests_cant": "Continuum of configurations and rotations; tests check single cases with tolerances.", "anchors": ["Analysis/MPCDAnalysis/EckartSystem.py: getEckartVectors, getEckartFrame, getEckartFrameEquilibriumPositions, getEckartMomentOfInertiaTensor, getEckartAngularVelocityVector"]}
{"id": "C77", "title": "Eckart conditions hold for deformed bodies", "statement": "For every instance configuration, however deformed, the Eckart frame that an EckartSystem reports is orthonormal, the equilibrium positions satisfy the Eckart condition (the sum of the cross products of equilibrium and instantaneous positions vanishes), and in the frame that turns with the reported angular velocity the velocities have no net moment about the equilibrium positions; instances with another particle count or mass raise ValueError.", "quantifier": "for all reference and instance configurations of particles with equal masses", "why_tests_cant": "Holds for a continuum of deformations; tests use rigidly rotated copies only.", "anchors": ["Analysis/MPCDAnalysis/EckartSystem.py: getEckartFrame, getEckartFrameEquilibriumPositions, getEckartMomentOfInertiaTensor, getEckartAngularVelocityVector"]}
{"id": "C78", "title": "Initial star configuration is complete and usable", "statement": "Initialisation gives every particle of the star a position and a velocity: no two particles coincide, bonded particles are at distance 1, and all velocities are zero.", "quantifier": "for all numbers of arms and arm lengths, with and without magnetic particles", "why_tests_cant": "Unbounded parameter space; memory that is not written may by chance contain usable values.", "anchors": ["src/OpenMPCD/CUDA/MPCSolute/StarPolymers.cu: initializePositionsOnHost, initializeVelocitiesOnHost"]}
{"id": "C79", "title": "Timestep blocks that are malformed are rejected", "statement": "A timestep block in ordered format is read exactly if each of the first atoms has a row of three or six numbers, of the same kind for all atoms; it is rejected if rows are missing, malformed, or only some have velocities, and rejected if it is in indexed format.", "quantifier": "for all headers, numbers of atoms and rows", "why_tests_cant": "Unbounded numbers of atoms and rows, all kinds of damage.", "anchors": ["src/OpenMPCD/VTFSnapshotFile.cpp: readTimestepBlock"]}
{"id": "C80", "title": "Bond lines add exactly the bonds they mention", "statement": "Reading a bond line adds each bond it mentions, including all bonds along chains, and no other; lines that mention a bond twice or an existing bond are rejected.", "quantifier": "for every sequence of atom and bond lines", "why_tests_cant": "Lines and chains are of unbounded length.", "anchors": ["src/OpenMPCD/VTFSnapshotFile.cpp: readBondLine"]}
{"id": "C82", "title": "Normal coordinates have the properties of normal modes", "statement": "The normal coordinates computed on the host and on the device are those of the documentation: the 0th is the mean of the vectors. With shift -1/2 the others do not change if all vectors are displaced, the last one vanishes and the vectors can be recovered from the others. With the default shift 0, even modes do not change under displacement, while odd modes do.", "quantifier": "for all numbers of vectors, vectors, displacements and modes", "why_tests_cant": "Trigonometric sums of unbounded length, over all vectors.", "anchors": ["include/OpenMPCD/NormalMode.hpp", "include/OpenMPCD/ImplementationDetails/NormalMode.hpp: computeNormalCoordinate", "include/OpenMPCD/CUDA/DeviceCode/ImplementationDetails/NormalMode.hpp"]}
{"id": "C83", "title": "A device buffer has room for its elements", "statement": "A device buffer constructed for a number of elements has memory for at least that many, is freed exactly once when it is destroyed, and a request that cannot be met raises an exception.", "quantifier": "for every element size and element count", "why_tests_cant": "Sizes beyond 2^32 bytes are not allocated in tests.", "anchors": ["include/OpenMPCD/CUDA/ImplementationDetails/DeviceBuffer.hpp", "src/OpenMPCD/CUDA/DeviceMemoryManager.cpp", "include/OpenMPCD/CUDA/DeviceMemoryManager.hpp"]}
{"id": "C84", "title": "Sweeps, signals and the time limit", "statement": "The simulation does the configured number of sweeps, each followed by a measurement, and stops early only before a sweep, because of the time limit or a request to terminate; the data are saved at the end, unless a second request to terminate aborts the program. A request for an early save leaves the rest of the run unchanged.", "quantifier": "for every sequence of signals, times and failures", "why_tests_cant": "All arrival times of signals.", "anchors": ["src/OpenMPCD/main.cpp: run, signalHandler", "src/OpenMPCD/CUDA/Instrumentation.cpp: ~Instrumentation", "doc/SignalHandler.dox"]}
{"id": "C86", "title": "The snapshot file of a run has all snapshots", "statement": "The snapshot file that is saved at the end of a run with star polymers holds the state after every sweep, in order.", "quantifier": "for every run, with any number of early saves", "why_tests_cant": "Early saves are triggered by signals.", "anchors": ["src/OpenMPCD/CUDA/MPCSolute/Instrumentation/StarPolymers.cpp"]}
{"id": "C85", "title": "Bond measurements record what their names say", "statement": "Each measurement of a fluid of trimers, dumbbells or rods adds one value per molecule to each histogram file of the run, and the value is the quantity that the file is named and documented for: length, squared length, components, products of components, and angle with the flow direction of the bond. Averages over all dumbbells are the averages of those values; the self-diffusion coefficient is the mean square displacement of the centres over successive intervals of the configured length, divided by six times the elapsed time; the file about chains has, for each bond, the statistics of its squared lengths over all chains and measurements.", "quantifier": "for all positions, numbers of molecules, measurement times and chain lengths", "why_tests_cant": "There are no tests of these measurements; a swapped index is visible only in the data.", "anchors": ["src/OpenMPCD/CUDA/MPCFluid/Instrumentation/HarmonicTrimers.cpp", "src/OpenMPCD/CUDA/MPCFluid/Instrumentation/GaussianDumbbells.cpp", "src/OpenMPCD/CUDA/MPCFluid/Instrumentation/GaussianRods.cpp", "src/OpenMPCD/CUDA/MPCFluid/Instrumentation/GaussianChains.cpp"]}
{"id": "C87", "title": "Stored histograms and other number pairs can be analysed", "statement": "Reading pairs of numbers from a file returns, ordered by key, exactly the pairs in those lines that consist of two numbers and whose key passes the documented minimum; other lines are ignored; a key that is given twice is an error. A compressed version of the file is used if there is one. The mean computed from a histogram file that a simulation saved differs from the mean of the recorded values within the histogram's range by at most half a bin (plus the rounding of printed numbers). The alignment of dumbbells is computed as tan(2 chi) = 2<xy>/(<xx>-<yy>) from the histogram files of a run, in the older file naming if the newer files are missing.", "quantifier": "for all file contents, minima, recorded values, histogram ranges and bin counts", "why_tests_cant": "The tests use a few files; the bound on the mean is about all data.", "anchors": ["Analysis/MPCDAnalysis/Utilities.py:5-106", "Analysis/MPCDAnalysis/EmpiricalDistribution.py", "Analysis/MPCDAnalysis/DumbbellAlignment.py", "src/OpenMPCD/Histogram.cpp:75-92"]}
{"id": "C88", "title": "Settings shared by several runs are found, and disagreements detected", "statement": "The consistent value of a setting in a list of runs is the value in the first run if all runs agree on it; it is an error if a run lacks the setting, or has a different value.", "quantifier": "for all lists of runs, configurations and names of settings", "why_tests_cant": "All lists and configurations; values that are groups.", "anchors": ["Analysis/MPCDAnalysis/Utilities.py:108-200"]}
{"id": "C81", "title": "Saved numbers are read back exactly", "statement": "Every finite double that the simulation writes to a file (snapshots, graphs, histograms, profiles) or to the text of a serialized accumulator is read back as exactly the same double, so that restarting from a snapshot continues from the state that was saved. The same holds for the other element type the accumulators are tested with (float), for the squared bond lengths of chains, and for accumulators serialized in Python.", "quantifier": "for every finite value of the number type", "why_tests_cant": "There are 2^64 doubles; whether 17 digits are enough is decided by the rare numbers for which decimal and binary neighbours are almost equally far apart, and the numbers that 8 digits confuse are as rare in tests.", "anchors": ["src/OpenMPCD/VTFSnapshotFile.cpp: VTFSnapshotFile (precision), writeTimestepBlock", "include/OpenMPCD/ImplementationDetails/OnTheFlyStatistics.hpp: serializeToString, unserializeFromString", "src/OpenMPCD/Graph.cpp: save", "src/OpenMPCD/Histogram.cpp: save", "src/OpenMPCD/CUDA/MPCFluid/Instrumentation/GaussianChains.cpp: saveSpecific", "Analysis/MPCDAnalysis/OnTheFlyStatistics.py: serializeToString"]}
{"id": "C89", "title": "Fourier-transformed velocities are those of all particles", "statement": "The instrumentation for Fourier-transformed velocities returns, for a simple fluid, the mean over all particles of exp(i k r) v, and, for dumbbells, trimers and chains, the mean over these with position and velocity of their centres of mass, independently of the order in which threads run and of what the buffers held before; it stores only within its buffers, its launches stay within the limits of the hardware, and for integer components of the wave vector the result does not change when a particle is moved by edges of the box.", "quantifier": "for every number of particles and chain length within 32 bits, every state, wave vector and thread order", "why_tests_cant": "Launches are split only for more than half a million particles, numbers of blocks and threads are exchanged in the launch, and a skipped or doubly counted particle changes a mean over many particles by less than its noise.", "anchors": ["cudaDeviceCode/OpenMPCD/CUDA/MPCFluid/Instrumentation/FourierTransformedVelocity/DeviceCode/fourierTransformedVelocity.cu", "src/OpenMPCD/CUDA/MPCFluid/Instrumentation/FourierTransformedVelocity/Simple.cu", "src/OpenMPCD/CUDA/MPCFluid/Instrumentation/FourierTransformedVelocity/Doublets.cu", "src/OpenMPCD/CUDA/MPCFluid/Instrumentation/FourierTransformedVelocity/Triplets.cu", "src/OpenMPCD/CUDA/MPCFluid/Instrumentation/FourierTransformedVelocity/Chains.cu"]}
{"id": "C90", "title": "Tables of transverse velocity correlations", "statement": "From the files of Fourier-transformed velocities that runs have saved, the program computeTransverseVelocityCorrelationFunction writes one table per wave vector, in increasing order. For each time s*dt below the maximum correlation time, the row contains the mean, over all runs with this wave vector and all pairs of measurements s steps apart that are not before the minimum time, of the real part of the scalar product of the parts of the velocities perpendicular to the wave vector; this mean divided by the one for time zero; and the number of pairs. If a time has fewer than two pairs, the program ends with an exception and writes no tables for greater wave vectors; the same happens for the wave vector zero.", "quantifier": "for every set of saved files, box, time step and pair of times", "why_tests_cant": "The set of wave vectors, runs and lengths is unbounded; whether pairs across runs are left out, or a run with a similar wave vector is mixed in, changes a noisy mean only slightly.", "anchors": ["Analysis/src/computeTransverseVelocityCorrelationFunction/writePlotfiles.cpp: getDataFromFile, getTVACFFT, writePlotfile, writePlotfiles", "Analysis/src/computeTransverseVelocityCorrelationFunction/getWaveVectorsAndFiles.cpp: getWaveVectorsAndPaths", "src/OpenMPCD/CUDA/MPCFluid/Instrumentation/FourierTransformedVelocity/Base.cpp: save"]}
{"id": "C91", "title": "Script and program agree on transverse velocity correlations", "statement": "The script transverseVelocityCorrelationFunction.py computes from the same files the same normalised correlation function as the program, for all times up to the length of the longest run.", "quantifier": "for every set of saved files with regular times, and every box", "why_tests_cant": "Boxes in tests are cubes, for which the direction of the integer components is that of the wave vector; the deviation for other boxes is a smooth function that looks plausible.", "anchors": ["Analysis/transverseVelocityCorrelationFunction.py", "Analysis/MPCDAnalysis/Vector3D.py: getPerpendicularTo", "Analysis/src/computeTransverseVelocityCorrelationFunction/writePlotfiles.cpp"]}
{"id": "C92", "title": "Setting values in a configuration", "statement": "Setting a value under a dotted name creates the groups on the way that do not exist yet, and leaves everything else as it was; the value is read back with the type it was set with. If a group on the way, or the name itself, is an existing setting of another kind, or a component of the name is not a legal name, an exception is thrown and no existing setting changes. Creating groups and lists behaves likewise. Every unsigned int is read back as the same number.", "quantifier": "for every configuration, dotted name and value", "why_tests_cant": "The trees of settings and the dotted names are unbounded; whether another setting is touched depends on how names are prefixes of each other, and unsigned values from 2^31 on do not appear in tests.", "anchors": ["include/OpenMPCD/Configuration.hpp: Configuration::set, createGroup, createList", "src/OpenMPCD/Configuration.cpp"]}
{"id": "C93", "title": "Reading values from a configuration", "statement": "A value is read if and only if the dotted name leads to a setting of the type asked for; otherwise an InvalidConfigurationException is thrown. Reading relative to a setting is reading the concatenated name. A name with an illegal component is rejected with an exception. Children, their count and the check for unexpected children are those of the group; elements of lists are read by index, and what is not a list is rejected. Reading several settings gives their values in order, and assertValue succeeds if and only if the setting has the given value.", "quantifier": "for every configuration, dotted name and type", "why_tests_cant": "The trees of settings and the dotted names are unbounded, and exceptions depend on where in the tree the name stops leading somewhere.", "anchors": ["include/OpenMPCD/Configuration.hpp: Configuration::Setting, Configuration::List, read, has, getSetting, getList, assertValue, hasSpecificChildren", "src/OpenMPCD/Configuration.cpp", "include/OpenMPCD/ImplementationDetails/Configuration/Setting.hpp"]}
{"id": "C94", "title": "Configurations that a simulation accepts", "statement": "A simulation is constructed if and only if its configuration has the documented settings with the documented types, a fluid of a known kind whose number of particles per constituent divides the number of particles (density times volume of the box), or no fluid and density zero, and a solute that is star polymers, or none. What the simulation then uses are the values of these settings. Every configuration that is accepted can be simulated; otherwise, an exception tells that the configuration is invalid.", "quantifier": "for every configuration", "why_tests_cant": "Tests construct simulations from a handful of configuration files; combinations of settings, fluids, solutes and boundary conditions in either form, and box volumes beyond 32 bits, are too many to try.", "anchors": ["src/OpenMPCD/CUDA/Simulation.cu: constructor", "src/OpenMPCD/CUDA/BoundaryCondition/Factory.cpp", "src/OpenMPCD/CUDA/BoundaryCondition/LeesEdwards.cu", "src/OpenMPCD/CUDA/MPCFluid/Factory.cpp", "src/OpenMPCD/CUDA/MPCSolute/Factory.cpp", "src/OpenMPCD/CUDA/MPCFluid/Base.cu"]}
{"id": "C95", "title": "Initial positions and velocities of a fluid", "statement": "Fluid particles start with velocities that sum to zero and, if a temperature is configured, have that temperature. Particles of simple fluids and trimers are placed anywhere in the box; the particles of rods, dumbbells and chains are placed in the box, at the configured distance from the particle they are bonded to (1 for chains), by rejecting attempts that leave the box. This holds for each fluid that is made, and placing the particles ends.", "quantifier": "for all random numbers, box sizes, bond lengths, shear rates and numbers of particles", "why_tests_cant": "Initial states are random: tests see one stream of random numbers per run, and rejected attempts, boxes that are too small, and a second fluid in the same process are not tried.", "anchors": ["src/OpenMPCD/CUDA/MPCFluid/Base.cu: initializeVelocitiesOnHost", "src/OpenMPCD/CUDA/MPCFluid/Simple.cu", "src/OpenMPCD/CUDA/MPCFluid/GaussianRods.cu", "src/OpenMPCD/CUDA/MPCFluid/GaussianDumbbells.cu", "src/OpenMPCD/CUDA/MPCFluid/GaussianChains.cu", "src/OpenMPCD/CUDA/MPCFluid/HarmonicTrimers.cu", "src/OpenMPCD/AnalyticQuantitiesGaussianDumbbell.cpp: lagrangianMultiplierRatio"]}
{"id": "C96", "title": "Time series of star polymers", "statement": "Each analysis of star polymers returns the analysed quantity of each snapshot of a run (for potential energies and numbers of clusters: of snapshots that are the least number of time steps apart that make up a time of 100), in the order of the snapshots, under the simulation time at which the snapshot was taken. Shape descriptors do not depend on where the polymers are; rotation frequencies of rigidly moving polymers are their angular velocities; Eckart angular velocities refer to the first snapshot.", "quantifier": "for every snapshot file, time step, warmup and sweep size", "why_tests_cant": "The analyses have no tests; all files and settings are too many, and a wrong time axis looks plausible.", "anchors": ["Analysis/MPCDAnalysis/StarPolymersAnalysis/Asphericity.py (and the other analyses there)", "Analysis/MPCDAnalysis/VTFSnapshotFile.py: readTimestep", "src/OpenMPCD/CUDA/Simulation.cu: sweep", "src/OpenMPCD/main.cpp"]}
{"id": "C97", "title": "Cached results of star polymer analyses", "statement": "An analysis computes its result the first time it is asked, stores it, and returns the same result whenever it is asked again for the same snapshots, without computing it again; a forced update computes it anew.", "quantifier": "for every analysis, file system and computed result", "why_tests_cant": "Whether the first and the later results agree depends on all values, types and file states.", "anchors": ["Analysis/MPCDAnalysis/StarPolymersAnalysis/Base.py", "Analysis/MPCDAnalysis/StarPolymersAnalysis/Cache.py", "Analysis/MPCDAnalysis/StarPolymersAnalysis/RotationFrequencyVector.py"]}
{"id": "C98", "title": "The energies drawn by the thermostat are gamma distributed", "statement": "The generators of gamma variates, given a source of normal and of uniform numbers, return exactly the values of a rejection method whose proposal density, acceptance probability and transformation give the density of the gamma distribution with the requested shape and scale, for every shape; the quick acceptance test never accepts what the exact one rejects. The thermostat scales the velocities in a collision cell so that the kinetic energy in its frame is such a variate, of shape 3(N-1)/2 and scale kT.", "quantifier": "for every shape, scale, number of particles, energy and sequence of random numbers", "why_tests_cant": "Tests compare histograms of finitely many samples for a few shapes; a wrong constant in the quick test changes the distribution by too little to be seen.", "anchors": ["include/OpenMPCD/CUDA/Random/Distributions/Gamma_shape_ge_1.hpp", "include/OpenMPCD/CUDA/Random/Distributions/Gamma.hpp", "include/OpenMPCD/CUDA/Random/Distributions/Uniform0e1e.hpp", "cudaDeviceCode/OpenMPCD/CUDA/DeviceCode/Simulation.cu: generateCollisionCellMBSFactors"]}
{"id": "C99", "title": "Predictions of viscosity and self-diffusion follow the published formulas", "statement": "The C++ functions for the kinetic and collisional contributions to the kinematic and dynamic shear viscosity, for self-diffusion, and for the hydrodynamic radius return the values of the published formulas, and the mean free path is what a particle covers in a time step with the thermal velocity; totals are sums of contributions, dynamic viscosities are kinematic ones times the mass density, and everything is positive for every fluid with stochastic rotation dynamics in two or more dimensions. The Python functions return the same numbers, and the script prints the numbers given (or the defaults), the contributions and their sum, and rejects the first number that is not positive.", "quantifier": "for every temperature, mass, cell size, density, rotation angle, and time step", "why_tests_cant": "Two implementations are checked at a few points only; a prediction of the wrong sign or an integer division shows for particular numbers.", "anchors": ["src/OpenMPCD/AnalyticQuantities.cpp", "Analysis/MPCDAnalysis/AnalyticQuantities_SimpleFluid.py", "Analysis/getSRDKinematicShearViscosityPrediction.py"]}
{"id": "C100", "title": "Measured and predicted bonds of dumbbells in shear flow are comparable", "statement": "The ratio of Lagrangian multipliers that the C++ and Python functions compute is the only solution that is at least 1, grows with the shear rate, and the predictions made from it agree with each other: the mean square bond length stays the same at every shear rate, the components change monotonically, the alignment angle is that of the predicted tensor, and the bonds that the simulation starts with have the predicted components. The script that plots bond components shows every run's averages in units of l^2/3, in curves of runs under the same conditions, in the order of Weissenberg numbers, next to the predictions over the same range.", "quantifier": "for every shear rate, relaxation time and bond length, and for every list of runs", "why_tests_cant": "The relations hold for a continuum of shear rates; the script has no tests, and its branches for former formats fail only when data in them is at hand.", "anchors": ["src/OpenMPCD/AnalyticQuantitiesGaussianDumbbell.cpp", "Analysis/MPCDAnalysis/DumbbellUtilities.py", "Analysis/plotMeanSquareBondComponents.py", "Analysis/plotDumbbellXYCorrelation.py: prediction", "Analysis/plotDumbbellAlignment.py: prediction"]}
{"id": "C101", "title": "The relaxation of normal modes is normalised by its value at time difference zero", "statement": "The script for relaxation times reads the autocorrelations of normal modes from all run directories, and plots or writes, for every selected mode, the mean over all runs for each time difference, in increasing order, divided by the mean for time difference 0; it reports invalid files, modes, and divisions by zero. It can read what the simulation writes.", "quantifier": "for every list of run directories, contents of their files, and choice of modes", "why_tests_cant": "The script has no tests; whether the series is normalised correctly depends on the order of lines and on the order of dictionaries, which differs between versions of Python.", "anchors": ["Analysis/getRelaxationTime.py", "src/OpenMPCD/CUDA/MPCFluid/Instrumentation/NormalModeAutocorrelation.cpp: save"]}
{"id": "C102", "title": "Collections of points keep values and errors, and their files have what was saved", "statement": "After any sequence of additions and queries, a Data2D reports for every position the value given last, and the error it was added with, in increasing order or in the order of addition, as asked for; the mean, the root mean square deviation and the average of moving averages are those of these values; getLocalExtrema returns the minima and maxima in increasing order; plot shows every n-th point in increasing order; and saving a Data2D and reading the file gives the same points.", "quantifier": "for every sequence of additions and queries, every window, every n, every way of printing numbers that can be read again", "why_tests_cant": "There are no tests of errors, of files, or of extrema; what is reported depends on the whole history of additions, and what is read depends on which points have errors.", "anchors": ["Analysis/MPCDAnalysis/Data2D.py: addPoint, sort, getArithmeticMean, getRootMeanSquaredDeviationFromArithmeticMean, getAverageFromSimpleMovingAverage, getLocalExtrema, getKeysAndValues, getKeysAndValuesAndErrors, getSize, writeTo, plot"]}
{"id": "C103", "title": "Static data are what the last line about them says", "statement": "StaticData gives, for each of its three keys, the number after the description in the last line of the file that has the description, and raises KeyError if there is none; a line with a description that is not followed by just a number is a ValueError.", "quantifier": "for every text of the file", "why_tests_cant": "There are no tests, and descriptions can be anywhere in arbitrary lines.", "anchors": ["Analysis/MPCDAnalysis/StaticData.py"]}
{"id": "C104", "title": "The instruments of a simulation measure every particle where it is in the primary box", "statement": "The instruments are those of the settings in `instrumentation`, with a fluid only, and an unknown setting or a subdivision into zero parts is an InvalidConfigurationException. Each call of measure counts every particle exactly once, wherever its coordinates are: the histogram has the magnitude of its velocity, the density profile its mass, averaged over the measurements, in the subdivision of the primary box in which its image under Lees-Edwards boundary conditions lies, and the flow profile its velocity relative to the layer it is in; no measurement fails, and the results do not depend on which image represents a particle. The files written are those of the instruments, the fluid and the solute, and the data of the run; config.txt is never overwritten. The last column of the density profile is the mass density.", "quantifier": "for every configuration, every box, subdivision, shear rate, sequence of times and particle configurations, every set of files present", "why_tests_cant": "There are no tests of Instrumentation; particles can be arbitrarily far outside of the primary box, at any time, and the images depend on shear rate and time.", "anchors": ["src/OpenMPCD/CUDA/Instrumentation.cpp", "src/OpenMPCD/LeesEdwardsBoundaryConditions.cpp: getImageUnderLeesEdwardsBoundaryConditions", "src/OpenMPCD/DensityProfile.cpp: DensityProfile", "src/OpenMPCD/FlowProfile.cpp: FlowProfile", "src/OpenMPCD/Histogram.cpp: Histogram"]}
{"id": "C105", "title": "The velocity autocorrelation is measured over all logical entities and between the right times", "statement": "Each call of measure records, for each snapshot, the time of the snapshot, the current time, and the mean over all logical entities of the scalar product of the velocity of their center of mass then and now. Snapshots are taken, renewed and used by the documented procedure: with calls after each timestep, snapshot i is of call i m, and renewed every p calls, where m and p are the numbers of timesteps after which a further snapshot is due, and a snapshot too old; at every call there are between one and snapshotCount lines, with time differences from zero to the measurement time. Invalid configurations are rejected. The file written is read back by the analysis with the same data.", "quantifier": "for every fluid of single particles, doublets, triplets or chains, every number of particles below 2^32/3, all velocities, times of calls, measurement times and numbers of snapshots, every order of the threads", "why_tests_cant": "The existing test compares chains of length five with the documented procedure for a few configurations; what is correlated with what depends on the whole history of calls, and triplets are not tested.", "anchors": ["src/OpenMPCD/CUDA/MPCFluid/Instrumentation/VelocityAutocorrelation/Base.cu", "src/OpenMPCD/CUDA/MPCFluid/Instrumentation/VelocityAutocorrelation/Triplets.cu", "cudaDeviceCode/OpenMPCD/CUDA/MPCFluid/DeviceCode/Triplets.cu"]}
{"id": "C106", "title": "The table of velocity autocorrelations has one line for each time difference, with mean, error and number of data", "statement": "The script velocityAutocorrelation.py reads the files of all run directories and writes, for each time difference with data from times no earlier than minimumTime, in increasing order, the time difference, the mean of the recorded values, its standard error by the blocking method and their number. Without run directories it exits with status 1; the metadata file lists the run directories, and is written only along with the table.", "quantifier": "for every list of run directories, their contents, timestep, minimum time, number format", "why_tests_cant": "There are no tests of the script; it depends on which time differences occur how often in which run.", "anchors": ["Analysis/velocityAutocorrelation.py", "Analysis/MPCDAnalysis/VelocityAutocorrelation.py: VelocityAutocorrelation"]}
{"id": "C107", "title": "Star polymers are made from their settings, or not at all", "statement": "The constructor of star polymers succeeds exactly if the settings are complete, of the right types, and the size of the MD timestep is positive; then structure, mass and potentials are as given, with the documented defaults and mixing rules, and the magnitude of the dipole orientation is of no relevance. Without an initial state, the stars are initialised with beads at unit distances along straight arms, at rest; with one, positions and velocities are those of the snapshot, velocities being zero if it has none. Snapshots that do not exist or are of another structure are rejected.", "quantifier": "for every tree of settings, every structure, file system, contents of the snapshot, and contents of uninitialised memory", "why_tests_cant": "The tests use a few configurations with one structure each; what happens for missing or ill-typed settings, several stars, or snapshots without timesteps is not tested, and uninitialised memory may be zero by chance.", "anchors": ["src/OpenMPCD/CUDA/MPCSolute/StarPolymers.cu: StarPolymers", "src/OpenMPCD/VTFSnapshotFile.cpp: VTFSnapshotFile", "include/OpenMPCD/CUDA/MPCSolute/StarPolymers.hpp"]}
{"id": "C108", "title": "Vectors stored elsewhere act on their own elements only", "statement": "A RemotelyStoredVector reads, compares and computes like the Vector3D with the same coordinates; writing through it changes the vector with its number as the same operation on a Vector3D would and no other element of the array, in any dimension, also if both operands are the same vector. Its scalar product and magnitude are those of the documented vector space.", "quantifier": "for every memory, base address, number of the vector, dimension, and operand", "why_tests_cant": "Tests only exercise atomic addition and comparison for a few vectors; that no other element changes, and overlapping operands, range over all memories and addresses.", "anchors": ["include/OpenMPCD/RemotelyStoredVector.hpp: RemotelyStoredVector", "cudaDeviceCode/OpenMPCD/RemotelyStoredVector.cu: atomicAdd"]}
{"id": "C109", "title": "Angles and products of vectors in the plane", "statement": "The scalar product of Vector2D is symmetric and bilinear (sesquilinear for complex coordinates), magnitudes are zero only for the vector of zeros, and for vectors that are not zero the angle lies between 0 and pi, has the cosine that is returned, is 0 or pi exactly for parallel or antiparallel vectors, pi/2 exactly for orthogonal ones, and does not depend on magnitudes.", "quantifier": "for all vectors and factors", "why_tests_cant": "Tests compare a few vectors; characterisations of angles range over all pairs of vectors.", "anchors": ["include/OpenMPCD/Vector2D.hpp: Vector2D", "include/OpenMPCD/Vector2D_Implementation2.hpp: Dot"]}
{"id": "C110", "title": "The C++ analysis library finds and reads the files and settings of runs", "statement": "MPCDAnalysis::File opens a regular file, or a compressed one with the ending .bz2, and yields its decompressed text; getFilesByRegex returns exactly the regular files of a directory whose names match, in the order of the directory, and nothing for a path that is not a directory; properties are the last values given in the lines at the start of a file; getConsistentConfigValue returns a value exactly if there is at least one run and all configurations have that value, with the required type, and otherwise fails with the documented exceptions.", "quantifier": "for all file systems, names, texts, lists of run directories and configurations", "why_tests_cant": "There are no tests of this library, and tests would only use a few files; claims about which names match and when values agree range over all names and configurations.", "anchors": ["Analysis/src/MPCDAnalysis/File.cpp: File, readNameValuePairs, hasProperty, getProperty", "Analysis/src/MPCDAnalysis/Utilities.cpp: getFilesByRegex", "Analysis/include/MPCDAnalysis/Utilities.hpp: getConsistentConfigValue"]}
{"id": "C111", "title": "The program for transverse velocity correlation functions writes complete tables or reports an error", "statement": "If all runs agree on the settings and there are sufficiently many measurements, computeTransverseVelocityCorrelationFunction writes, for each wave vector of the measurements, one file whose name has the components of the wave vector, with the settings, the number of measurements and, for each correlation time below the maximum, the normalised and absolute mean of all products of transverse velocities and their number; then the metadata, if asked for, with the number of all measurements; and exits with status 0. If settings differ or are missing, nothing is written; whenever the status is not 0, no metadata are written.", "quantifier": "for all options, file systems, runs, wave vectors and measurements", "why_tests_cant": "There is no test of the program; texts and totals depend on sets of wave vectors and measurements of any size.", "anchors": ["Analysis/src/computeTransverseVelocityCorrelationFunction/main.cpp: mymain, main", "Analysis/src/computeTransverseVelocityCorrelationFunction/writePlotfiles.cpp: writePlotfile, writePlotfiles", "Analysis/src/computeTransverseVelocityCorrelationFunction/getWaveVectorsAndFiles.cpp: getWaveVectorsAndPaths"]}
{"id": "C112", "title": "The interactive plotter reads the settings and points of data files", "statement": "Plotter.provideDataFile adds one hidden plot for a file, compressed or not, whose lines are comments of the form '#name = value' or two numbers: its points are the numbers of the file in order, and the given dictionary gets each name that it does not have yet, with a number if the value can be read as one and otherwise with its text; provideDataDirectory adds such a plot, with a dictionary of its own, for every file of a directory, and of directories within if asked to; any other file is refused without a new plot. Files that transverseVelocityCorrelationFunction.py writes can be read, with all settings and points.", "quantifier": "for all files, directories, dictionaries, and plotters", "why_tests_cant": "There are no tests of the plotter, which needs a window; which texts are read as what, and what happens to dictionaries that are shared, depends on all files and earlier calls.", "anchors": ["Analysis/MPCDAnalysis/InteractivePlotter/Plotter.py: provideDataFile, provideDataDirectory", "Analysis/transverseVelocityCorrelationFunction.py"]}
{"id": "C113", "title": "The interactive plotter shows the plots that are selected, and lists all of them", "statement": "After any sequence of successful calls, the canvas has exactly the lines of the plots that are shown, each drawn from its data in the chosen way; a plot can be shown and hidden again without changing others. The list has a column for 'Plotted' and for each characteristic that some plot has and that is not hidden, in the chosen order, and each cell is the value of the plot in its row. setSortingCharacteristic sorts by the column of that name or throws InvalidArgumentException, and the list stays sorted so while its columns stay the same and the characteristic is not hidden.", "quantifier": "for all sequences of calls, data, dictionaries, names and orders", "why_tests_cant": "There are no tests of the plotter; the claims are about all sequences of calls.", "anchors": ["Analysis/MPCDAnalysis/InteractivePlotter/Plotter.py: provideData, hideCharacteristics, setCharacteristicsOrder, setSortingCharacteristic, _toggleVisibility, _replot, _updatePlotSelector, _getListOfPlotCharacteristics"]}
{"id": "C114", "title": "Negative values are plotted dashed with their absolute values, errors as bands around them, and sliders move in steps", "statement": "plotDashedIfNegative draws the points, in order, as solid lines where the values are not negative and as dashed lines of the absolute values where they are, in one colour, with the label on the first line only; with errors, the band lies between the absolute value minus and plus the error, where for a logarithmic scale negative bounds are replaced by the given bound; a DiscreteSlider shows the greatest multiple of the step that is not above its position, and refuses steps that are not positive.", "quantifier": "for all axes, points, errors, labels, steps and positions", "why_tests_cant": "There are no tests of these functions; pieces can have any number and length.", "anchors": ["Analysis/MPCDAnalysis/PlotTools.py: plotDashedIfNegative, DiscreteSlider"]}
{"id": "C115", "title": "Merged axes have all lines with their labels", "statement": "mergeAxes returns axes that have all lines of the given axes in order, each with the text that it had in the legend of its axes, and whose title and labels consist of the different titles and labels of the given axes.", "quantifier": "for all lists of axes with legends", "why_tests_cant": "There are no tests; the number of axes, lines and legends is arbitrary.", "anchors": ["Analysis/MPCDAnalysis/MatplotlibTools/mergeAxes.py: mergeAxes"]}
{"id": "C116", "title": "The data manager finds all runs, groups cluster nodes by GPUs and pending jobs by size", "statement": "DataManager.getRuns lists the matches of the configured (or given) paths, pattern by pattern, and the same list again on later calls. The nodes of the cluster are those meant by the node lists in the configuration, with their numbers of GPUs; they are grouped by these numbers, each group with a text from which the scheduler's node list parser gets exactly its nodes. Job batches are grouped by the number of programs that they start, each group having exactly the submitted runs without parents of that size. Not true, although documented: directories that are not of runs are ignored; runs also appear once for each pattern that they match.", "quantifier": "for all configurations, patterns, file systems, node lists and translators", "why_tests_cant": "There are no tests of the data manager; it depends on the user's home directory and the file system.", "anchors": ["Analysis/MPCDAnalysis/DataManager.py: __init__, getRuns, getClusterNodesGroupedByGPUCount, getSubmittedJobBatchesGroupedByJobBatchSize"]}
{"id": "C117", "title": "Selecting a project", "statement": "DataManager.selectProject makes the first project of the given name the current one, with the base configuration and generators that its file defines, and changes nothing else; unknown names are refused. The translator given to the file replaces the local job directory at the beginning of a path by the server's and leaves other paths alone. Not true: a failed selection leaves the former one, and paths in a sibling directory whose name merely begins with the same characters are left alone.", "quantifier": "for all lists of projects, names, files and paths", "why_tests_cant": "There are no tests of projects; the files are arbitrary programs.", "anchors": ["Analysis/MPCDAnalysis/DataManager.py: selectProject, getProject, getProjects"]}
{"id": "C118", "title": "The plotted flow profile, its error band and the predicted shear flow", "statement": "FlowProfile.getAnalyticShearFlowProfileAsFunctionOfY gives, for each slice of the box in order, the shear flow at its coordinate, which with centred slices is antisymmetric about the middle, and at the same coordinates as the measured profile; integers as shear rates are refused. The plot has the mean velocities along x of the profile, the prediction if wanted, and, if all slices have equally many data, a band of the given multiple of the standard error around the means. With different numbers of data the band is not that: all slices use the number of data of the last one.", "quantifier": "for all profiles, data, shear rates, subdivisions and multiples", "why_tests_cant": "There are no tests of flow profiles; the error needs slices with different numbers of data, and nothing checks what is drawn.", "anchors": ["Analysis/MPCDAnalysis/FlowProfile.py: getMPLAxesForFlowAlongXAsFunctionOfY, getAnalyticShearFlowProfileAsFunctionOfY"]}
{"id": "C119", "title": "The arrows of the flow field", "statement": "FlowProfile.showVectorFieldGUI draws, for the chosen output block and layer, an arrow in the middle of each cell whose x is a key of the first block and whose y is an x key of the second block, with the mean flow of the cell, and no others. So in boxes that are longer along y than along x arrows are missing, in boxes that are shorter it fails with KeyError, and with fewer than two blocks with IndexError.", "quantifier": "for all blocks, layers and cells", "why_tests_cant": "There are no tests of it, since it opens a window; the error does not show in cubic boxes.", "anchors": ["Analysis/MPCDAnalysis/FlowProfile.py: showVectorFieldGUI"]}
{"id": "C120", "title": "Plots of collections of statistics show the means in order, with the errors that were asked for", "statement": "OnTheFlyStatisticsCollection.getMPLAxes draws, in increasing order of the keys, the mean of the data of each key, whatever the order in which keys were added; with True, error bars of one standard error or deviation, with a float between 0 (exclusive) and 1, a shaded region of one of these around the means, with that opacity. If a key has a single datum, errors are refused, or these keys are left out, optionally with a warning, as asked for. Collections that have a key without data, unknown treatments, other floats and True for both are refused. Not true: floats for both errors are refused (both regions are drawn), and plotEveryNth has an effect.", "quantifier": "for all collections, orders of insertion, numbers of data, and arguments", "why_tests_cant": "There are no tests of the collections' plots; which points and bars appear depends on the numbers of data of all keys.", "anchors": ["Analysis/MPCDAnalysis/OnTheFlyStatisticsCollection.py: getMPLAxes"]}
{"id": "C121", "title": "Plots of accumulators, autocorrelations, mean square displacements and normal modes", "statement": "OnTheFlyStatisticsDDDA.getMPLAxes draws, for all blocks with a variance and only these, the standard error of the mean that the block's data suggest, with its own error. Autocorrelation.getMPLAxes draws the mean product for every correlation time for which there is one, LogicalEntityMeanSquareDisplacement.getMPLAxes the mean square displacement for all times from 1 on, NormalModeAutocorrelation.getMPLAxes the mean autocorrelation for all times from 0 on, the latter three with the errors of the optimal block of DDDA. Not true: with errors, which are shown by default, autocorrelations of at least one datum can always be plotted (there must be at least two more data than the largest correlation time).", "quantifier": "for all data, numbers of times, modes and flags", "why_tests_cant": "The tests check the types of arguments and of the result only, not what is drawn; the failure needs short series of data.", "anchors": ["Analysis/MPCDAnalysis/OnTheFlyStatisticsDDDA.py: getMPLAxes", "Analysis/MPCDAnalysis/Autocorrelation.py: getMPLAxes", "Analysis/MPCDAnalysis/LogicalEntityMeanSquareDisplacement.py: getMPLAxes", "Analysis/MPCDAnalysis/NormalModeAutocorrelation.py: getMPLAxes"]}
{"id": "C122", "title": "Plots over shear rates show each run's measurement in the curve of its parameters", "statement": "For runs that can be read, compareSelfDiffusionCoefficientMeasurementTimes.py sends gnuplot a command and data that it reads as one curve with error bars per measurement time: a point per shear rate, with the mean and the root mean squared deviation of the self-diffusion coefficient; nothing is left over. plotMeanSquareBondLengths.py likewise gives a curve per spring constant, with the root mean square length of the first bond, and refuses runs in which the two spring constants differ; a theory file given with --theory is shown as a further curve. Of runs with the same curve and shear rate, the last counts. Not true: a theory can be plotted without any runs (the command lacks \"plot\"), and theory files need not end with a line end (the last line is changed, and the data never end).", "quantifier": "for all lists of runs, file contents, theory files and ways of printing numbers without commas and line ends", "why_tests_cant": "There are no tests of scripts; whether gnuplot splits the text as intended depends on all numbers of curves and points.", "anchors": ["Analysis/compareSelfDiffusionCoefficientMeasurementTimes.py", "Analysis/plotMeanSquareBondLengths.py"]}
{"id": "C123", "title": "Plots over the Weissenberg number show the measurements in order, and the theory", "statement": "For runs with pairwise different Weissenberg numbers, from the configuration or else static_data.txt, plotDumbbellAlignment.py sends gnuplot |tan(2 chi)| of each run, in increasing order of the Weissenberg number, and the theoretical values at 100 equidistant numbers from the smallest to the largest; a Weissenberg number that occurs twice is refused. plotDumbbellXYCorrelation.py likewise sends the mean product of the bonds' components. Not true: the latter shows the theory that it computes.", "quantifier": "for all lists of runs, file contents, configurations and theories", "why_tests_cant": "There are no tests of scripts; that a curve is missing shows on no exit status.", "anchors": ["Analysis/plotDumbbellAlignment.py", "Analysis/plotDumbbellXYCorrelation.py"]}
{"id": "C124", "title": "Decorrelation accumulators survive a round trip through text in C++, and other text is refused", "statement": "OnTheFlyStatisticsDDDA<double>::serializeToString followed by unserializeFromString, on any instance, gives all blocks and waiting numbers back to the last bit. unserializeFromString accepts exactly the texts with version, number of blocks, blocks and waiting numbers, and loads what the text says; otherwise it leaves the instance unchanged and throws InvalidArgumentException. Not true: it throws for all other texts (for a text without bars that is the number 1, it reads beyond the end of a vector), and for all states that no data lead to.", "quantifier": "for all accumulators with finite numbers of type double, and all texts", "why_tests_cant": "The unit test reads a few texts; whether 17 digits suffice, and what happens for all malformed texts, is about all doubles and all strings.", "anchors": ["include/OpenMPCD/ImplementationDetails/OnTheFlyStatisticsDDDA.hpp: serializeToString, unserializeFromString"]}
{"id": "C125", "title": "Decorrelation accumulators in C++ and Python give the same statistics", "statement": "For the same blocks, getSampleMean, hasBlockVariance, getBlockVariance, getBlockStandardErrorOfTheMean and getEstimatedStandardDeviationOfBlockStandardErrorOfTheMean return the same in C++ and Python, and complain in the same cases. After adding data, the variance, standard deviation and error of the mean of a block are those of the averages of 2^blockID consecutive data, and getMaximumBlockSize is the largest power of two that is at most the number of data. Not true: without debugging, C++ complains about blocks that there are not.", "quantifier": "for all accumulators, data, and block IDs, with and without debugging", "why_tests_cant": "The languages have separate tests, with few data sets.", "anchors": ["include/OpenMPCD/ImplementationDetails/OnTheFlyStatisticsDDDA.hpp", "Analysis/MPCDAnalysis/OnTheFlyStatisticsDDDA.py"]}
{"id": "C126", "title": "Interactions of star polymers in device memory are the documented ones, and are destroyed completely", "statement": "After createInteractionsOnDevice, entry getParticleTypeCombinationIndex(type1, type2) of the arrays points to the potential of the documented mixing rules, for types in either order, and for FENE if one of the types is Arm; other FENE entries are NULL in debug builds. destroyInteractionsOnDevice then deletes each object once and releases each array once; all its assertions hold, and device memory is as before. If cudaMalloc fails, MemoryManagementException is thrown and no object is created. Not true: then, all memory is released again.", "quantifier": "for all parameters with non-negative strengths, all states of device memory, all addresses that allocations get, with and without debugging", "why_tests_cant": "The unit test evaluates the potentials for some parameters and distances; it cannot observe what is left in device memory, nor failures of cudaMalloc.", "anchors": ["include/OpenMPCD/CUDA/MPCSolute/ImplementationDetails/StarPolymers_Implementation.hpp: createInteractionsOnDevice, destroyInteractionsOnDevice"]}
{"id": "C127", "title": "Star polymers leave nothing behind in device memory", "statement": "Constructing and destroying a StarPolymers object leaves device memory as it was: the four buffers, three arrays and ten interaction objects are released once each. If the constructor throws before the interactions are created (because of settings, or as a buffer cannot be allocated), device memory is as before, too. Not true: that holds whenever the constructor throws.", "quantifier": "for all numbers of coordinates, parameters, states of device memory, addresses, and points at which construction fails, with and without debugging", "why_tests_cant": "The tests do not look at device memory after objects are gone, and do not make constructors fail.", "anchors": ["src/OpenMPCD/CUDA/MPCSolute/StarPolymers.cu: StarPolymers, ~StarPolymers", "src/OpenMPCD/CUDA/DeviceMemoryManager.cpp"]}
{"id": "C128", "title": "Tables of settings have every setting, in order, and can be read back", "statement": "saveToParameterFile writes two lines: the names of all settings (as in the flat view) and additional parameters, each once, in alphabetic order, separated by tabulators; and their values in the same order, texts in braces, empty groups as None, truth values as true and false. If there are no tabulators or ends of lines in names and values, and no name is empty, then reading the columns gives each name with its value; different values other than floating-point numbers have different texts. TypeError is raised if the path is not a string, the parameters no dictionary, or a name not a string; AssertionError if a parameter is a setting. Not true: every table can be read back.", "quantifier": "for all configurations, additional parameters, and ways of writing floating-point numbers", "why_tests_cant": "The test has one configuration with and without additional parameters; names, numbers of settings and texts are unbounded.", "anchors": ["Analysis/MPCDAnalysis/Configuration.py: saveToParameterFile"]}
{"id": "C129", "title": "Copies to and from device memory transfer exactly the elements, and errors are reported", "statement": "copyElementsFromHostToDevice, copyElementsFromDeviceToHost and copyElementsFromDeviceToDevice make the bytes of count elements at the destination those of the source, zeroMemory makes them zero, and nothing else in memory changes; data copied to the device and back are the same. elementMemoryEqualOnHostAndDevice is true exactly if all bytes are the same. In debug builds, NULL gives NULLPointerException, and pointers to memory of the wrong kind, as well as comparing no elements, give InvalidArgumentException; elements that are not within one allocation give an exception in every build; nothing is changed then. isDeviceMemoryPointer and isHostMemoryPointer tell pointers apart. Not true: with an error of an earlier call pending, or with more bytes than 64 bits can count.", "quantifier": "for all contents of memory, allocations, addresses, sizes and numbers of elements, with and without debugging", "why_tests_cant": "The tests copy a few arrays of fixed length; that nothing else in memory changes, and errors of earlier calls, are not observed.", "anchors": ["include/OpenMPCD/CUDA/ImplementationDetails/DeviceMemoryManager.hpp: copyElementsFromHostToDevice, copyElementsFromDeviceToHost, copyElementsFromDeviceToDevice, zeroMemory, elementMemoryEqualOnHostAndDevice", "src/OpenMPCD/CUDA/DeviceMemoryManager.cpp: isDeviceMemoryPointer, isHostMemoryPointer", "include/OpenMPCD/CUDA/ImplementationDetails/DeviceBuffer.hpp: copyFromDevice, zeroMemory"]}
{"id": "C130", "title": "Devices are identified by their addresses, and stack sizes that were set are returned", "statement": "getPCIAddressString is domain, bus and slot in lower-case hexadecimal digits with colons between them: reading it gives the three numbers back, so that different devices have different addresses; with domains below 65536, and buses and slots below 256, there are four, two and two digits; negative identifiers are refused in debug builds. A new Device is the active one; getDeviceCount and SystemInformation::getCUDADevices give the number, names and memory of all devices in order; without an active device, an exception is thrown. setStackSizePerThread sets what getStackSizePerThread returns, for that device only, and refused sizes change nothing. Main memory is the number of units times their size. Not true: addresses have four, two and two digits for all domains; stack sizes are those of the device that the instance represents; a refused size has no effect on later calls.", "quantifier": "for all numbers and properties of devices, identifiers, stack sizes, and sizes of memory, with and without debugging", "why_tests_cant": "The tests run on one machine with its devices, and cannot see other domains, several devices or errors of the runtime.", "anchors": ["src/OpenMPCD/CUDA/Device.cpp", "src/OpenMPCD/SystemInformation.cpp: getTotalPhysicalMainMemory, getCUDADevices"]}
{"id": "C131", "title": "Plots of analyses of star polymers show the values under the right labels, and each analysis is registered once", "statement": "getMPLAxesForValueAsFunctionOfTime of an analysis that gives numbers shows one line, with exactly the times and values in order, and titles and axes that name the analysis; of one that gives vectors, a line for each of the x, y and z components, under its label; of the orientation angles, the angles that belong to the first, second and third eigenvalue; vectors with fewer than three components raise an IndexError. The registry keeps classes in order, refuses names that are taken and what is not a class, and there is only one; after the import, each analysis is in it once, and no two analyses share a file in the cache. The program with windows shows each of its analyses once. Not true: every registered analysis can be plotted.", "quantifier": "for all data, registries and objects to be registered, and all analyses", "why_tests_cant": "There are no tests of these plots or of the registry; wrong components or labels yield plots that look fine.", "anchors": ["Analysis/MPCDAnalysis/StarPolymersAnalysis: getMPLAxesForValueAsFunctionOfTime, _getCacheFilename", "Analysis/MPCDAnalysis/StarPolymersAnalysis/Registry.py", "Analysis/MPCDAnalysis/StarPolymersAnalysis/__init__.py"]}
{"id": "C132", "title": "Runs are analysed together only if their wave vectors and simulation boxes agree, and wave vectors fit into the box", "statement": "In transverseVelocityCorrelationFunction.py, the wave vectors of a run are those in the first lines of its data files, one for each file, in the order of names. Several runs are taken together if and only if all have the same wave vectors in files of the same names, and boxes of the same size; otherwise a ValueError is raised. The wave vector for integers n is the only one that has n waves in each direction of the box; boxes without extent raise a ZeroDivisionError. Not true: runs with the same data are taken together, even if files of some are compressed; each wave vector is listed once.", "quantifier": "for all directories and texts of files, numbers of runs, sizes of boxes, and integers", "why_tests_cant": "There are no tests of this script, which is run on data of long simulations.", "anchors": ["Analysis/transverseVelocityCorrelationFunction.py: getSimboxByRundirs, getWaveVectorIntegerComponentsByRundir, getWaveVectorIntegerComponentsByRundirs, getWaveVectorFromIntegerComponents"]}
{"id": "C133", "title": "Functions that set symbols on the device set exactly their symbols, and refuse boxes without extent", "statement": "setSimulationBoxSizeSymbols stores the three sizes and their product as the number of collision cells, if the product fits into an unsigned integer; in debug builds, sizes of zero, and a time step of zero in setMPCStreamingTimestep, throw an InvalidArgumentException and change nothing. setMPCStreamingTimestep, setSRDCollisionAngleSymbol, setMPCParticleCountSymbol (of fluids and solutes) and setLeesEdwardsSymbols store their values, the last one shear rate times the size of the box; setGaussianDumbbellSymbols stores the frequency, and the cosine and sine of frequency times time step. All other symbols stay as they are. If the first copy to the device fails, a CUDA exception is thrown and nothing has changed. Not true: the number of cells is the product for all sizes; a call that throws has changed nothing.", "quantifier": "for all sizes, time steps, angles, counts, shear rates and frequencies, all previous values of symbols, with and without debugging", "why_tests_cant": "The tests use one box and one time step, do not look at the other symbols, and cannot make copies to the device fail.", "anchors": ["src/OpenMPCD/CUDA/DeviceCode/Symbols.cu", "cudaDeviceCode/OpenMPCD/CUDA/MPCFluid/DeviceCode/Base.cu: setMPCParticleCountSymbol", "cudaDeviceCode/OpenMPCD/CUDA/DeviceCode/LeesEdwardsBoundaryConditions.cu: setLeesEdwardsSymbols", "cudaDeviceCode/OpenMPCD/CUDA/MPCFluid/DeviceCode/GaussianDumbbells.cu: setGaussianDumbbellSymbols"]}
{"id": "C134", "title": "Vectors of real numbers check their arguments, and tell whether they are equal or close", "statement": "A Vector3DReal is made from another one, from a list or tuple of three numbers, or from three numbers, and from nothing else: all other arguments raise a TypeError. == and != compare coordinates by value, so that integers equal floats, and raise a TypeError for what is not a vector. isClose tells whether all coordinates are within the absolute tolerance plus the relative tolerance times the magnitude of the argument's coordinate, where those of numpy are taken if none are given; negative tolerances raise a ValueError, and those that are not floats a TypeError. Products and ratios need numbers, ratios are floats, and dividing by zero raises a ValueError. Indices 0, 1 and 2 give the coordinates, all others raise a KeyError. Not true: isClose is symmetric; one can iterate over a vector.", "quantifier": "for all vectors, arguments of all types, tolerances, factors, divisors and indices", "why_tests_cant": "The tests use a few vectors and arguments; those of isClose happen to be symmetric.", "anchors": ["Analysis/MPCDAnalysis/Vector3DReal.py: __init__, isClose, __eq__, __ne__, __mul__, __truediv__, __getitem__"]}
{"id": "C135", "title": "The scripts for normal modes and for mean square displacements write complete tables", "statement": "NormalModeAutocorrelation.py saves a header and one line for each mode and each time from zero to the maximum, by modes and then by times, and no others; the table of middle modes has one line for each mode that is neither the first nor the last one, at time zero. LogicalEntityMeanSquareDisplacement.py saves one line for each time from one to the maximum. The list of runs that it writes has all runs in quotation marks and in order, and is written only if the table is. Without runs, nothing is written, and the status is 1. Not true: NormalModeAutocorrelation.py ignores --metadataFilename without --saveFilename, as its help says; the list of runs tells the runs.", "quantifier": "for all numbers of modes, maximum times, results, lists of runs and names of files", "why_tests_cant": "There are no tests of the scripts.", "anchors": ["Analysis/NormalModeAutocorrelation.py", "Analysis/LogicalEntityMeanSquareDisplacement.py"]}
{"id": "C136", "title": "plotDashedIfNegative.py plots one curve for each file", "statement": "plotDashedIfNegative.py gives, for each file in the order of its arguments, one curve of the points of the file in the order of its lines, where lines that begin with # are skipped, and so are points at zero or beyond 1000. The label says 8 if there is a digit 1 in the name of the file, otherwise 16 if there is a digit 2, and 4 in all other cases. A blank line ends the script with an exception, so that nothing is shown. Not true: all points of the given files are plotted; labels tell files apart, or follow from numbers in their names.", "quantifier": "for all files, lines, numbers and names", "why_tests_cant": "There are no tests of the script.", "anchors": ["Analysis/plotDashedIfNegative.py"]}
{"id": "C137", "title": "Iterators over every so many elements stay within their arrays and refuse other uses", "statement": "A StridedPointerIterator at an element can be accessed and incremented; one at the end is valid, but neither; a default-constructed one is singular and neither. Incrementing goes on by the stride, or to the end if that is closer; += goes on by so many strides, or to the end; the postfix form returns the place before. Accessing or incrementing at the end, or a singular iterator, throws an InvalidCallException. == and != compare addresses, whatever the ranges are. A loop over a StridedPointerIteratorRange accesses exactly the elements whose indices are multiples of the stride, in order. Not true: isValid returns false for singular iterators; comparisons do not depend on the order of operands; += does nothing at the end; one can loop over the empty range of a null pointer.", "quantifier": "for all arrays, places, strides and numbers of steps", "why_tests_cant": "There are no tests of these iterators.", "anchors": ["include/OpenMPCD/StridedPointerIterator.hpp", "include/OpenMPCD/StridedPointerIteratorRange.hpp"]}
