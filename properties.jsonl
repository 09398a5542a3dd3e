{"id": "C01", "title": "Cached tables equal freshly computed tables", "statement": "Whatever calls preceded it, asking the library for the range and range-straggling tables of (projectile, material, config) yields exactly the tables that a computation from scratch for these arguments yields, and the numbers returned by range, dedx_from_range, range_straggling, energy_out, energy_straggling, angular_straggling and nonreaction_rate are those of a call right after a cache reset, provided every spline construction finds the same leftovers in the two matrix elements it never initialises (C23). Two processes with different histories and the same default config return the same numbers. Everything that uses the tabulated angular scattering has these guarantees only when the scattering factors in use are equal or differ by more than 1e-3; otherwise the result depends on history. The one excluded key is the all-default one (C05).", "quantifier": "every finite history of lookups and resets, every later lookup key, every projectile energy, material density within tolerance and material thickness", "why_tests_cant": "The set of call histories is unbounded; a test exercises one order of a few calls and cannot rule out a stale or mixed-up entry after some other order or after eviction.", "anchors": ["src/storage.cpp:112-139 (Data::Add, Data::Get)", "src/catima.cpp:20-28 (operator== Config)", "src/structures.cpp:9-28 (operator==)", "src/catima.cpp:404-445 (calculate_DataPoint)"]}
{"id": "C02", "title": "Cache lookups are total and return the entry that was asked for", "statement": "After any history the cache holds exactly 60 entries, a lookup never steps outside them, and the entry it returns carries a key that the library's own == identifies with the requested key (or was written by this very lookup). Looking the same key up twice in a row does not change the cache and returns the same entry.", "quantifier": "every finite history, every key (including keys with NaN fields; in binary64 a NaN density or scattering factor compares equal to every other one, a NaN mass or charge to none)", "why_tests_cant": "The cursor wraps around after 60 insertions and the lookup dereferences the position before the cursor; tests do not reach every cursor position and every hit/miss pattern.", "anchors": ["src/storage.cpp:102-139", "include/catima/storage.h:205-284"]}
{"id": "C03", "title": "Cache never holds two equal keys, and hits never move the cursor", "statement": "In every reachable cache state no two occupied entries have keys that the library's == identifies, an insertion of a key already present changes nothing, and a lookup of a present key leaves all entries and the insertion cursor unchanged.", "quantifier": "every finite history of lookups, insertions and resets", "why_tests_cant": "Needs an invariant over all reachable states; == is not transitive so it does not follow from looking at one insertion.", "anchors": ["src/storage.cpp:112-139"]}
{"id": "C04", "title": "First in, first out: an inserted entry lives for 59 further insertions and dies with the 60th", "statement": "An entry written by a lookup that missed keeps its contents as long as fewer than 60 further keys are inserted; with the 60th the same slot holds another key. A hit does not refresh it: an entry at distance k from the insertion cursor survives exactly k further insertions however often it is looked up, so the reference returned by a hit on the oldest entry is invalidated by the very next miss. One calculate call inserts at most one entry and leaves all other entries alone.", "quantifier": "every starting state reachable by some history, every later sequence of lookups", "why_tests_cant": "Use-after-overwrite depends on how many misses happen between taking and using a reference, over unbounded call sequences.", "anchors": ["src/storage.cpp:112-139", "src/catima.cpp:271-356 (calculate)", "include/catima/constants.h (max_storage_data)"]}
{"id": "C05", "title": "Every occupied entry is self-contained; the untouched entry is not", "statement": "In every reachable cache state each occupied entry's three splines point at that entry's own tables (never at a freed or foreign buffer), so evaluating them is defined. An entry that was never written has null splines, and a lookup with default-constructed projectile, material and config returns such an entry: evaluating range on it is undefined behaviour. Copy-assigning an entry yields splines that alias the source entry's buffers.", "quantifier": "every finite history of lookups; all entries", "why_tests_cant": "Dangling pointers are invisible until the allocator reuses memory; a passing test does not show absence.", "anchors": ["src/storage.cpp:102-139", "include/catima/storage.h:205-236 (DataPoint)", "include/catima/spline.h:103-160 (cspline_special)"]}
{"id": "C06", "title": "Key equality ignores exactly energy and thickness", "statement": "Two requests share a cache entry iff A, Z, Q of the projectile agree, the materials agree in constituents (in order), molar mass, I and, within 1e-6, density, and the configs agree with scattering_factor within 1e-3. The relation is reflexive and symmetric over the reals and does not depend on projectile energy or material thickness; it is not transitive. In binary64 it is still symmetric, but a NaN density or NaN scattering factor compares equal to every value.", "quantifier": "all projectiles, materials with any number of constituents, configs", "why_tests_cant": "Relation laws quantify over all pairs/triples of values of unbounded size.", "anchors": ["src/structures.cpp:9-28", "src/catima.cpp:20-28", "src/storage.cpp:28-35"]}
{"id": "C07", "title": "Concurrent lookups without external locking are unsafe", "statement": "A lookup that is not interrupted does what it does alone, whatever the other threads are in the middle of. Any number of threads whose keys are all stored may be interleaved freely. One thread may be inserting meanwhile, if no other thread's entry is the one about to be replaced and the new entry does not answer to another thread's key. Otherwise there are schedules in which a thread is handed the other thread's entry, both are handed an entry that was never computed, a thread asking for the same key sees an entry whose splines are not built yet, or the write goes past the end of the storage; and even without overlapping lookups the reference one thread holds can be overwritten by the other.", "quantifier": "any number of threads, all schedules of the individual steps of the lookups, all reachable cache contents", "why_tests_cant": "A test run samples one schedule per run; the bad schedule needs a preemption between insertion and return.", "anchors": ["src/storage.cpp:112-139"]}
{"id": "C08", "title": "energy_out classifies its result and always terminates", "statement": "energy_out uses at most 102 values of the range function and of its derivative, and its result e is 0 (if the range at T does not exceed the thickness, or a Newton iterate dropped below 1e-3), -1 (no convergence in the iteration budget), or satisfies |range(T) - range(e) - thickness| < 1e-5. If the range at T is at most the thickness the result is 0. Which of the three it is, is decided by the Newton sequence. In double precision, for any range function: a result other than 0 and -1 has finite ranges, and the exact residual of the double values is below 1e-5(1+1e-9) plus 2^-52 times the thickness; this holds for the library call in any well-formed cache.", "quantifier": "every energy, thickness, and every range spline (arbitrary functions for value and derivative)", "why_tests_cant": "The loop is while(1); termination and the residual bound must hold for all splines, not for sampled ones.", "anchors": ["src/catima.cpp:203-233 (energy_out)"]}
{"id": "C09", "title": "Outgoing energy is zero or at least the threshold except on the first iterate", "statement": "If energy_out needs at least one Newton correction, its result is 0, -1 or at least 1e-3 MeV/u. When the very first estimate already has a small residual it is returned unchecked: there are energies, thicknesses and increasing range functions for which the returned energy is negative. The same classification holds for the computation in double precision.", "quantifier": "every energy, thickness and range spline", "why_tests_cant": "The escaping case occupies a tiny corner of the input space (few-keV projectiles stopped within 1e-5 g/cm2 of their range).", "anchors": ["src/catima.cpp:203-226"]}
{"id": "C10", "title": "Splitting a layer changes the outgoing energy only within the solver tolerance", "statement": "For a fixed range function, sending a particle through n layers of the same material with thicknesses t1..tn (none of which stops it) gives an energy e with |range(T) - range(e) - (t1+...+tn)| < n*1e-5; hence the split and unsplit calculation differ in residual range by less than (n+1)*1e-5 g/cm2. In double precision the residual of n layers is below n*1e-5(1+1e-9) plus 2^-52 times the sum of the thicknesses.", "quantifier": "every n, all thicknesses, all range functions", "why_tests_cant": "Quantifies over all ways of cutting a target into layers.", "anchors": ["src/catima.cpp:203-226", "src/catima.cpp:358-396"]}
{"id": "C11", "title": "Vector calls agree with scalar calls point by point", "statement": "energy_out and dedx_from_range on a vector of energies return a vector of the same length whose i-th entry equals the scalar call at the i-th energy, except that energies below 1e-3 give 0.", "quantifier": "every vector of energies of any length, every material and config", "why_tests_cant": "Unbounded vector length.", "anchors": ["src/catima.cpp:69-91", "src/catima.cpp:228-252"]}
{"id": "C12", "title": "Single-layer result: energy balance and special cases", "statement": "calculate returns the default result for energies below 1e-3 (minus rounding slack); for thickness 0 it returns Eout=Ein, dEdxo=dEdxi, Eloss=0 and no straggling; otherwise Ein=T, Eloss=(Ein-Eout)*A and, when Eout<1e-3, dEdxo, sigma_a, sigma_E and tof are all 0. range, dEdxi, sigma_r and Eout are what the functions range, dedx_from_range, range_straggling and energy_out return. In double precision, for 0 <= Eout <= Ein and A >= 0, the energy loss is A*(Ein-Eout) up to 5 half-units of the last place and never negative.", "quantifier": "every projectile, material, thickness, config, and every cache content for the key", "why_tests_cant": "Branch structure must be right for all inputs including the boundaries.", "anchors": ["src/catima.cpp:271-356"]}
{"id": "C13", "title": "Every number in a result is computed with the config passed in, except time of flight", "statement": "The result fields Ein, Eout, Eloss, range, dEdxi, dEdxo, sigma_E, sigma_a, sigma_r, sigma_x, cov and sp depend only on projectile, material and the passed config, not on the library-wide default config. tof is computed with the library-wide default config: changing only the default config changes tof, and changing only the passed config in a way that leaves Eout alone does not. For an outgoing energy from 30 MeV/u on and at most 15000 MeV/u at entry, switching off only the Barkas correction makes the computed time of flight longer wherever the effective charge is positive, whatever the charge formula.", "quantifier": "every projectile, material, pair of configs", "why_tests_cant": "A dependency claim quantifies over pairs of runs.", "anchors": ["src/catima.cpp:339 (calculate)", "src/catima.cpp:447-453 (calculate_tof_from_E)"]}
{"id": "C14", "title": "Layer stacks are processed in order, each layer seeing only what precedes it", "statement": "calculate on a stack returns one result per layer, the i-th being calculate on layer i at the outgoing energy of layer i-1 (the initial energy for i=0); the first k results depend only on the first k layers, and processing l1 then l2 gives the results of l1 followed by the results of l2 started at l1's outgoing energy.", "quantifier": "stacks of any length", "why_tests_cant": "Unbounded stack length.", "anchors": ["src/catima.cpp:358-396"]}
{"id": "C15", "title": "Energy bookkeeping over a stack", "statement": "The total Eloss equals the sum of the layers' Eloss, total tof the sum of the layers' tof, total Eout the last layer's Eout. If every layer is entered with an energy that is 0 or at least 1e-3, total Eloss = A*(Ein - Eout); for an entry energy in between this fails. For a stack without layers Eout is 0 although Ein is the projectile energy. In double precision, if no layer raises the energy and A >= 0, the total energy loss of n layers is A*(Ein-Eout) up to 2n+5 half-units of the last place.", "quantifier": "stacks of any length, all projectiles and configs", "why_tests_cant": "Unbounded stack length; the sum telescopes only under a condition on every intermediate energy.", "anchors": ["src/catima.cpp:358-396"]}
{"id": "C16", "title": "Beam-size bookkeeping over a stack is optical transport", "statement": "The accumulated (sigma_x^2, cov, sigma_a^2) after a stack equals applying, layer by layer, the drift by the layer's thickness in cm to the covariance matrix and then adding the layer's own contribution; it is compatible with splitting the stack; if the initial matrix and each layer's contribution are positive semidefinite (and thicknesses non-negative or not) so is the total, so the absolute value under the final square root never acts.", "quantifier": "stacks of any length, any initial phase space", "why_tests_cant": "Unbounded stack length, real-valued inequality over all values.", "anchors": ["src/catima.cpp:358-396", "include/catima/structures.h (Phasespace)"]}
{"id": "C17", "title": "Survival probability of a stack", "statement": "The total survival probability is the product of the layers' probabilities if all are non-negative; it is negative if one is negative and none is 0. If the layer probabilities are each -1 or in [0,1], and once a layer reports -1 every later layer reports -1 or 1, the total is exactly -1 or in [0,1]. A -1 is not absorbing: the loop turns the sequence -1, 1/2 into -1/2. In double precision the product of n probabilities stays in [0,1] and is right to 2n half-units of 1.", "quantifier": "stacks of any length", "why_tests_cant": "Unbounded stack length and sign handling in all orders.", "anchors": ["src/catima.cpp:383-385", "src/reactions.cpp:18-55"]}
{"id": "C18", "title": "Energy grid is positive and strictly increasing", "statement": "For logmax > logmin and at least two points every grid value is positive, consecutive values strictly increase with constant ratio, and the end points are 10^logmin and 10^logmax (with the library's value of ln 10). The array classes that compute their values on access give the same values; the linear one is equally spaced. In double precision, with an exponential function right to 4 units of the last place, the 600 energies are right to 3e-14 and each exceeds the one before by more than 3.7 percent.", "quantifier": "all limits and all grid sizes", "why_tests_cant": "Quantifies over all grid sizes and limits.", "anchors": ["include/catima/storage.h:38-66 (EnergyTable)"]}
{"id": "C19", "title": "Grid lookup brackets the argument and stays in bounds", "statement": "In exact arithmetic, for v between the first value and the last value minus the tolerance, lookup returns i with 0<=i<=N-2 and grid[i]-eps <= v < grid[i+1]; below the grid it returns -1 and from the last value minus the tolerance on it returns N-1; so evaluating a spline never indexes outside the arrays. The binary search variant brackets exactly. In binary64 arithmetic with correctly rounded exp/log this fails at the documented upper limit: for v=1e7 lookup reads one past the end of the grid; and for NaN the conversion to int is undefined. In double precision, with exponential and logarithm right to 4 units of the last place, lookup brackets every energy from the first grid energy to the last one reduced by 1e-11 (up to the same 1e-11 below), classifies every finite value outside correctly, and finds every grid energy at its own index.", "quantifier": "all arguments, all grids", "why_tests_cant": "The failing argument lies within 14 representable numbers of the last grid point; sampling does not find it.", "anchors": ["include/catima/storage.h:43-66", "include/catima/constants.h:8-39"]}
{"id": "C20", "title": "Spline passes through its data", "statement": "For any logarithmic grid and any data the evaluated spline equals the data at each grid point, the cubics of neighbouring intervals agree at their common knot, and outside the grid the spline continues linearly; this holds whatever the two uninitialised matrix elements contain. The evaluated function is nevertheless not exactly continuous: within the lookup tolerance below a grid energy the cubic of the next interval is already used, and there are data for which the value jumps there. In double precision the spline returns the tabulated number exactly at every grid energy.", "quantifier": "all grids and data of any size, all contents of uninitialised memory", "why_tests_cant": "All data vectors; contents of uninitialised memory are not controllable in a test.", "anchors": ["include/catima/spline.h:103-222"]}
{"id": "C21", "title": "Spline smoothness: the slope jumps at interior knots", "statement": "The second derivative of the spline is continuous at interior knots. The slope is continuous there iff the knots are equally spaced around it or the neighbouring second derivatives agree: slope on the right minus slope on the left at knot i is exactly (h_i - h_{i-1})(b_{i-1}-b_{i+1})/3 with h the spacings and 2b the second derivatives, because the tridiagonal solver uses the lower diagonal as upper and vice versa. On every logarithmic grid with at least four points there are data for which the slope, hence dedx_from_range, jumps. (Leftovers in the uninitialised elements of absolute value below 2.)", "quantifier": "all grids with >= 4 points, all interior knots, all data", "why_tests_cant": "The jump is small on the 600-point grid and hides below test tolerances.", "anchors": ["include/catima/spline.h:59-99 (tridiagonal_matrix)", "include/catima/spline.h:164-205 (cspline_special)"]}
{"id": "C22", "title": "Tridiagonal elimination is exact and never divides by zero", "statement": "For every strictly row-diagonally-dominant tridiagonal system of any size the elimination used for the splines meets no zero pivot and returns the unique solution of the system it is given (lower diagonal in the slot the solver reads as lower, upper in the slot it reads as upper). Whenever it returns anything, this is the unique solution or the all-zero vector it returns on a zero pivot. The systems built for splines qualify when the leftovers are below 2.", "quantifier": "all sizes and all dominant matrices and right-hand sides", "why_tests_cant": "Unbounded size.", "anchors": ["include/catima/spline.h:76-99 (trig_solve)"]}
{"id": "C23", "title": "Spline construction reads uninitialised memory", "statement": "For every grid with at least two points, constructing a spline reads two matrix elements that nothing has written. Splines built from the same data with different leftovers in these elements can differ.", "quantifier": "all sizes", "why_tests_cant": "A test sees one particular leftover (mostly zero).", "anchors": ["include/catima/spline.h:50-99", "include/catima/spline.h:164-205"]}
{"id": "C24", "title": "Spline construction is linear in the data", "statement": "With the same grid and the same leftovers, the spline of a*y1+b*y2 equals a*(spline of y1)+b*(spline of y2) in value and derivative at every point.", "quantifier": "all grids, data, scalars, evaluation points", "why_tests_cant": "Universally quantified algebraic law.", "anchors": ["include/catima/spline.h:103-222"]}
{"id": "C25", "title": "Tabulated coefficients are interpolated linearly and bounded by their neighbours", "statement": "Inside the tabulated energy interval the interpolated coefficient equals the table value at a grid energy and lies between the two neighbouring table values otherwise. Outside it is 0, although the documentation promises the coefficient at the limit: precalculated_lindhard returns 0 above the table, precalculated_lindhard_X returns 1 below and 0 above. In the last 3e-15-wide window below the end of the table the element behind the last one is read (exact arithmetic; the window contains no double for the library's table). In double precision, for every row of the four tables: 0 outside, at a grid energy the correctly rounded table entry, and in between (up to 1e-11 from the last energy) within 19*2^-53*(|entry|+|next entry|) of the straight line through two neighbouring entries. At 1e7 MeV/u itself the element behind the last energy is read when libm is correctly rounded.", "quantifier": "all energies, all tables", "why_tests_cant": "All real energies; documentation disagrees only outside the tested energies.", "anchors": ["include/catima/storage.h:68-81 (EnergyTable_interpolate)", "src/calculations.cpp:580-614", "include/catima/calculations.h:79-91"]}
{"id": "C26", "title": "Quadrature laws", "statement": "Each of the 14 Gauss-Legendre rules is linear in the integrand, monotone, changes sign under exchange of the limits, evaluates the integrand only strictly inside the interval, is invariant under affine changes of variable, and the rule of order n integrates every polynomial of degree up to 2n-1 up to a relative error of 1e-20 due to the digits of its constants. In double precision the nodes of the 8-point rule stay inside the interval, and the result for a non-negative integrand is the exact sum over the evaluated nodes up to 20 half-units of the last place.", "quantifier": "all integrands, all limits, all 14 rules, all polynomials up to degree 2n-1", "why_tests_cant": "Quantifies over functions.", "anchors": ["include/catima/glq_integrator.h:40-60", "include/catima/glq_integrator.h:214-226 (GL_data<8>)"]}
{"id": "C27", "title": "Adaptive Gauss-Kronrod terminates and its node list is wrong", "statement": "The adaptive integrator terminates for every integrand after at most 2^50 - 1 rule applications, and its value is the sum of the values on a dyadic partition of the interval; the Kronrod and the embedded Gauss rule have their full polynomial exactness. get_points of the Gauss-Kronrod integrators (all of odd order) and of the Gauss-Legendre integrators of odd order lists neither of the two outermost nodes, repeats the midpoint and leaves its last element unset; for even orders it lists exactly the nodes in increasing order.", "quantifier": "all integrands and limits; all orders", "why_tests_cant": "Termination over all functions.", "anchors": ["include/catima/gkq_integrator.h:62-166", "include/catima/gkq_integrator.h (get_points)"]}
{"id": "C28", "title": "Range tables start at zero and increase", "statement": "Each table difference is A times the quadrature of the density over that grid interval, and all tables start at 0. If the stopping power is positive on the interval and A>0 the tabulated range strictly increases, and the tabulated range-straggling and angular variances do not decrease when their densities are non-negative. Up to 10 MeV/u no assumption on the stopping power is needed: the range at the grid energies strictly increases, also through the public function after any history. In double precision a table of a non-negative density starts at 0, never decreases, and is right to 2e-13 relative to the exact sum of the quadrature terms.", "quantifier": "all stopping power functions that are positive, all grid positions", "why_tests_cant": "All materials and projectiles at once.", "anchors": ["src/catima.cpp:404-445"]}
{"id": "C29", "title": "Weight and molar fractions", "statement": "For a material given by numbers of atoms (all stoichiometric numbers >= 1, at least one constituent) the weight fractions are the shares of the molar mass, positive and sum to 1; for a material given by weight fractions (all < 1) the weight fractions are the given ones and the molar fractions derived from them sum to 1. A description that mixes both is neither: its weight fractions need not sum to 1. Adding the elements one by one gives the same material as the list constructor for numbers of atoms, but a different molar mass for weight fractions.", "quantifier": "materials with any number of constituents", "why_tests_cant": "Unbounded number of constituents.", "anchors": ["src/structures.cpp:31-68", "include/catima/structures.h:122-134"]}
{"id": "C30", "title": "Thickness, density and number density are consistent", "statement": "Setting the thickness in cm and reading it back returns it (non-zero density), thickness = density*thickness_cm, number_density(i) is number_density times the molar fraction for valid i and 0 for every other int including negative ones, number_density_cm2 = number_density * thickness_cm.", "quantifier": "all materials, all int indices", "why_tests_cant": "All indices including those that rely on signed/unsigned conversion.", "anchors": ["include/catima/structures.h:136-223"]}
{"id": "C31", "title": "Layers behave like lists", "statement": "operator+ is concatenation (associative, with the empty stack as unit), num and thickness are additive, neither operand is modified, add appends at the end. Appending a non-empty stack to itself with add iterates over the vector being extended, which is undefined behaviour.", "quantifier": "stacks of any length", "why_tests_cant": "Unbounded length and aliasing.", "anchors": ["src/structures.cpp:70-114", "include/catima/structures.h:267-310"]}
{"id": "C32", "title": "Material database is total and physically consistent", "statement": "For every int id get_material is defined; ids 1-98 give the element with its tabulated weight and density, 201-349 the compounds, everything else the empty material (density 1e-5, thickness, molar mass and ionisation potential 0). All database materials have positive density, positive molar mass and constituents with positive A, Z>=1 and stn>0; materials given by fractions have fractions summing to 1 within 2e-6, except photo emulsion (0.99688: iodine is missing). Compounds whose name is a chemical formula have the composition of that formula, except Na2CO3, which has one sodium atom instead of two; compounds with a trivial name have the textbook composition, except Polyolefin, which has oxygen and no carbon.", "quantifier": "all int ids", "why_tests_cant": "All 2^32 ids; a data error in one of 149 compounds is not covered by the tests.", "anchors": ["src/material_database.cpp", "include/catima/material_database.h"]}
{"id": "C33", "title": "Isotope database", "statement": "For every int z and every i with 0 <= i < INT_MAX the isotope lookups stay in bounds, return 0 exactly when there is no such isotope, agree with each other, list distinct mass numbers in order of non-increasing abundance, and the abundances of each element sum to 1 within 1e-3. For negative i the lookups read the block of the previous elements or outside the table, for i = INT_MAX the addition i+1 overflows; the exact set of undefined calls is characterised.", "quantifier": "all int z, all int i", "why_tests_cant": "All pairs of ints.", "anchors": ["src/abundance_database.cpp"]}
{"id": "C34", "title": "Elemental data lookups are total", "statement": "Atomic weight, density and ionisation potential lookups are defined for every int z, non-negative, positive exactly on their tables (1-109, 1-98 , 1-120), and never read outside the tables.", "quantifier": "all int z", "why_tests_cant": "All ints.", "anchors": ["src/nucdata.cpp", "include/catima/nucdata.h", "include/catima/data_ionisation_potential.h"]}
{"id": "C35", "title": "MOCADI material ids round-trip", "statement": "For every compound id 201-347 the id search applied to the database material returns that id, except 251 (BC-400), which is found as 201; for Brass (348) and RW3 (349) it returns 0; for any material the search returns the first id from 201 to 347 whose material matches, and 0 iff there is none.", "quantifier": "all materials", "why_tests_cant": "All materials; the search bound is off by two.", "anchors": ["include/catima/convert.h"]}
{"id": "C36", "title": "Relativistic kinematics are consistent", "statement": "For T >= 0: gamma >= 1, 0 <= beta < 1, both strictly increasing in T; beta^2 = 1 - 1/gamma^2; momentum = A*u*beta*gamma and p^2 = E^2 - m^2; the beta used in the scattering formulas equals beta_from_T; the two definitions of p_from_T in the library agree over the reals. In binary64 the two definitions differ. In double precision, up to 1e10 MeV/u, gamma is right to 6 half-units of the last place and at least 1, beta lies in [0,1), neither decreases with the energy, the error of beta times beta is at most 23 half-units of 1, so that beta is right to nine digits from 1 keV/u on; both definitions of p_from_T are right to 5 half-units. A moving particle of 2^-50 MeV/u has beta 0, and one of 2^40 MeV/u beta 1.", "quantifier": "all non-negative energies and positive masses", "why_tests_cant": "Real-valued identities for all T.", "anchors": ["src/calculations.cpp:459-475", "include/catima/reactions.h:56-60", "src/catima.cpp:134-139"]}
{"id": "C37", "title": "Stopping power switches models without gaps", "statement": "dedx is 0 for T<=0, nuclear plus low-energy electronic part up to 10 MeV/u, nuclear plus Bethe part from 30 MeV/u, and in between a convex combination that starts at the former and ends at the latter, so it lies between them; the electronic part is continuous in the energy wherever its two ingredients are.", "quantifier": "all projectiles, materials, configs, energies", "why_tests_cant": "All energies including both sides of the seams.", "anchors": ["src/catima.cpp:31-49"]}
{"id": "C38", "title": "Array accesses in the stopping power are in bounds for 1<=Z<=108 projectiles", "statement": "For a projectile with 1 <= Z < 109 and targets with Z >= 1, no table access made by dedx, domega2dx and the cached-table construction is out of bounds, except that an energy within 3e-15 below the end of the Lindhard table reads the element behind it (exact arithmetic). For Z >= 109 the Lindhard tables are read out of bounds (the clamp is at 110, the tables have 108 rows); for Z < 1 (projectile or target) rows before the table are read. In binary64 arithmetic, with an exp and log accurate to four units of the last place, dedx, domega2dx, da2de and the three tables are defined for every configuration and every energy that is infinite or finite and outside a relative distance of 2e-11 of the end of the tables; at the double 1e7, inside that distance, dedx and domega2dx read behind the table if exp and log round the two numbers involved correctly.", "quantifier": "all projectiles, materials, energies", "why_tests_cant": "Out-of-bounds reads usually do not crash a test.", "anchors": ["src/calculations.cpp:580-614", "src/calculations.cpp:149-172", "src/srim.cpp:560-649", "include/catima/generated_LS_coeff.h"]}
{"id": "C39", "title": "Mixture rules", "statement": "Stopping power and straggling of a material are the weight-fraction-weighted sums over constituents, independent of the order of constituents (as are all tables), and unchanged when one constituent is split into two entries with the same element whose amounts add up, provided all three amounts are numbers of atoms (>= 1) or all three are fractions (< 1). Splitting one atom into two amounts below 1 changes the result, because they are taken as weight fractions.", "quantifier": "materials with any number of constituents, all permutations", "why_tests_cant": "Unbounded number of constituents and permutations.", "anchors": ["src/catima.cpp:51-60", "src/calculations.cpp:41-74", "src/calculations.cpp:108-123"]}
{"id": "C40", "title": "Effective charges", "statement": "Pierce-Blann gives a value in [0,Z) increasing with velocity; config none gives the charge state Q; Hubert gives 0 below 2.5 MeV/u and above it values below Z increasing with energy; Winger and Anthony-Landford stay below Z; Schiwietz is positive and below 1.13 Z. Counter-examples: Anthony-Landford is negative at low velocity, Schiwietz exceeds Z, the global formula passes the energy where Pierce-Blann expects the velocity and is -1 for Z >= 29 between 30 and 2000 MeV/u, and ATIMA 1.4 is 0. Winger's charge is at least 0.37 Z for every Z<=84, for Z<=92 from helium on, and for Z<=109 from beryllium on, at every energy. Counter-examples: it is below -10 for Z=108 in hydrogen at 10 GeV/u, and for uranium in hydrogen it is more than 18 charges lower at 10 GeV/u than at 150 MeV/u.", "quantifier": "all charges and velocities", "why_tests_cant": "Real-valued bounds.", "anchors": ["src/calculations.cpp:638-789"]}
{"id": "C41", "title": "Corrections have the right sign and stay in their tables", "statement": "The Barkas factor is at least 1 for every non-negative effective charge, and 1 for slow projectiles; the pair-production and bremsstrahlung terms are non-negative; the density-effect lookup is in bounds for every target Z >= 1, equals the standard parametrisation, is non-negative below x0 and positive above x1. Between x0 and x1 it can be negative: for astatine it drops below -3.", "quantifier": "all arguments", "why_tests_cant": "All real arguments.", "anchors": ["src/calculations.cpp:126-172", "src/calculations.cpp (pair_production)"]}
{"id": "C42", "title": "Low-energy electronic stopping power", "statement": "For target Z >= 1 both low-energy proton stopping powers are positive for every positive energy, in bounds for every Z>=1 and continuous at the 25 keV seam; the ion stopping power is positive for every ion charge from 1 to 46340; hence dedx is positive for 0 < T <= 10 MeV/u for every material with positive constituents.", "quantifier": "all positive energies, all Z", "why_tests_cant": "All energies and all 92 parameter rows.", "anchors": ["src/srim.cpp:560-620 (p_se, p_se85)"]}
{"id": "C43", "title": "Nuclear stopping power is non-negative", "statement": "For positive masses, charges >= 1 and positive energy the nuclear stopping power is positive, on both sides of the seam at reduced energy 30.", "quantifier": "all projectiles, targets, energies", "why_tests_cant": "All real inputs.", "anchors": ["src/calculations.cpp:41-74"]}
{"id": "C44", "title": "Reaction and survival probabilities", "statement": "reaction_rate + nonreaction_rate = 1, both in [0,1], survival through consecutive thicknesses multiplies and decreases with thickness; the survival probability of a layer is -1 (below 30 MeV/u at entry or exit), 1 for thickness <= 0, and otherwise in (0,1]; the Kox cross section is continuous in energy and non-negative from 30 MeV/u for all nuclei with A<=243, or A<=298 and Z<=0.87A. In double precision, for any libm whose exp is accurate, the computed survival probability has a relative error of at most (9 + 9x) half-units of the last place, where x is the exact exponent; the reaction probability has an absolute error of at most 20 of them, and the two computed values add up to one within two of them.", "quantifier": "all cross sections, thicknesses, energies", "why_tests_cant": "Real-valued laws.", "anchors": ["src/reactions.cpp", "include/catima/reactions.h"]}
{"id": "C45", "title": "Production rate", "statement": "For non-negative cross sections and thickness the production rate is non-negative and at most the thin-target value 1e-4*sigma*t, in both branches of the formula; the exact branch solves the production-and-loss equation; where the thin-target branch replaces it, the relative error is at most exp(0.0005 t) - 1. In double precision the rate of the branch |b - a| >= 5 is within 50 half-units times cs/|b - a| of the exact one, that of the other branch has a relative error of at most (15 + 10x) half-units and is not negative; for a very thin target the first branch can return exactly 0 although the exact rate is positive.", "quantifier": "all cross sections and thicknesses", "why_tests_cant": "Real-valued inequality including the removable singularity.", "anchors": ["include/catima/reactions.h (production_rate)"]}
{"id": "C46", "title": "Radiation length", "statement": "The radiation length of an element with 1 <= Z <= 46340 and positive mass is positive, tabulated for 24 elements, and for a material it is the weighted harmonic mean of its constituents' lengths (so between the smallest and the largest). For elements that are not tabulated it is smaller than Tsai's value because the Coulomb correction enters with the wrong sign. The scattering power is non-negative and the tabulated angular variance does not decrease up to 10 MeV/u. Over the whole table the angular variance strictly increases for every ion of charge 1 to 108 in a material of known elements with a positive scattering factor, if the effective charge is known not to be negative (as in C52) or the Barkas correction is off.", "quantifier": "all elements, materials with any number of constituents", "why_tests_cant": "Unbounded number of constituents.", "anchors": ["src/calculations.cpp:517-562"]}
{"id": "C47", "title": "Scattering in a layer", "statement": "The three moments of the scattering (variance of angle, covariance, variance of position) returned by angular_variance with order 0,1,2 are non-negative and satisfy cov^2 <= var_x*var_a, so a layer's contribution is a valid covariance matrix, for every scattering model except Gottschalk's and for Highland's in layers of at least 1e-6 radiation lengths; these two have negative integrands otherwise. The scattering factor of the config scales the tabulated angular variance but not these moments.", "quantifier": "all projectiles, materials, thicknesses; all range functions", "why_tests_cant": "Inequality over all integrands.", "anchors": ["src/catima.cpp:113-190"]}
{"id": "C48", "title": "C interface equals the C++ interface", "statement": "After any program of C calls, each C call returns the numbers of the C++ call it stands for, made with an empty cache, for the material built from the arguments and the effective charge stated: catima_calculate, catima_Eout, catima_range and catima_range_straggling use the selected one; catima_nonreaction_rate and the two straggling_from_E calls ignore the selection and use the one of whatever call came before. catima_range ignores its energy argument. An element with 99 <= Z <= 200 and no density given falls through to the compound default. The C++ function calculate of seven numbers gives the same as catima_calculate's material with the library-wide config when the density is given.", "quantifier": "all arguments and call histories", "why_tests_cant": "History dependence over all call sequences.", "anchors": ["src/cwrapper.cpp", "include/catima/cwrapper.h"]}
{"id": "C49", "title": "Calculator input handling", "statement": "The energy grid for num >= 3 and min < max has num points, starts at min, ends at max and strictly increases; num = 2 gives no energies; a step that does not divide the interval gives another spacing than the one asked for; each energy's numbers are those of calculate on the stack with the default config and an empty cache, independent of the other energies; the config selected on the input has no effect on the results; density and ionisation potential given for a compound are ignored. In double precision the grid of \"min\", \"max\" and \"num\" has num points, the first is min and the last max exactly, each is within five half-units of the last place of max of its exact place, and the points increase strictly if their distance is at least twelve of them.", "quantifier": "all inputs", "why_tests_cant": "All sizes and inputs.", "anchors": ["bin/catima_calculator.cpp"]}
{"id": "C50", "title": "Straggling variance is non-negative", "statement": "dedx_variance is non-negative for every projectile with 1<=Z<109 whose mass is at most 2.6 times the standard one, target Z >= 1 and energy up to 400000 MeV/u, and positive where the effective charge is not 0; hence the tabulated straggling does not decrease up to 10 MeV/u. Above 400000 MeV/u the tables contain zeros: for masses between the two tabulated ones the factor is still not negative, for helium-3 the variance becomes negative.", "quantifier": "all projectiles, targets, energies", "why_tests_cant": "All 43200 table entries and all interpolation points.", "anchors": ["src/calculations.cpp:596-636", "include/catima/generated_LS_coeff.h"]}
{"id": "C51", "title": "Magnification", "statement": "w_magnification returns (1,1) for a material without density or thickness, (0,0) if the particle stops at any of the three energies, and otherwise the relative slope of outgoing over incoming energy and momentum; for an identity energy transfer both are 1, for a proportional one the first is 1, and in general the first is the logarithmic derivative of the energy transfer at an energy within one percent.", "quantifier": "all projectiles, energies, materials", "why_tests_cant": "All real inputs.", "anchors": ["src/catima.cpp:455-471"]}
{"id": "C52", "title": "The stopping power is positive at every energy", "statement": "For an ion with 1<=Z<109 whose mass is that of an isotope near the standard weight, in a material of elements up to Z=120 whose mean ionisation energy is unset or not larger than the tabulated one, and for every effective-charge formula except Winger's and the global one, dedx is positive at every positive energy at which it is defined. Therefore all 600 entries of the range table (and the ranges returned for these energies) strictly increase, the straggling table does not decrease up to 4e5 MeV/u, and the time of flight of a slowed-down ion is positive. The same holds with Winger's formula for the pairs of ion and target where its charge is positive (C40), with the global formula for Z<29, and with any formula when the Barkas correction is switched off.", "quantifier": "all ions, materials, configurations, energies", "why_tests_cant": "Needs bounds on the whole bracket of the Bethe formula: shell, density, Barkas and Lindhard-Sorensen corrections over all tables and all energies.", "anchors": ["src/calculations.cpp", "src/catima.cpp:447-453", "src/storage.cpp"]}
{"id": "C53", "title": "Which calls can be undefined", "statement": "With 1<=Z<109, masses up to 1000 and target charge numbers 1..1000 (energies, thicknesses, densities, configurations arbitrary), every sequence of library calls has defined results, except that a call of calculate (for one material or a stack) whose entrance and exit energies enclose an energy in the last 2.3e-15 MeV/u below the end of the Lindhard tables may read past them in its time-of-flight integral. The time of flight between two energies of that window is undefined. In binary64 arithmetic (same libm) lookups succeed from every sound cache, the functions that evaluate a spline return for all infinite energies and all finite ones outside a relative distance of 2e-11 of the end of the tables, and energy_out returns unless its Newton iteration comes to a NaN or an energy in that distance.", "quantifier": "all sequences of calls, projectiles, materials, configurations, oracles for unwritten memory", "why_tests_cant": "All sequences and all real inputs; the failing window is narrower than a double.", "anchors": ["src/catima.cpp", "src/storage.cpp", "src/calculations.cpp:580-636"]}
{"id": "C54", "title": "The Lindhard-Sorensen correction is the sum over phase shifts", "statement": "Whenever bethek_lindhard returns a value for Z>0 and T>0 below the ultrarelativistic limit, there is one phase-shift function d, with d(k) the result of the inner computation for every k=-5000..4999 except 0, and the value is the sum over n=1..4999 of Lindhard and Sorensen's term in d plus beta^2/2, although the loop carries phase shifts from one step to the next; above the limit it is the closed ultrarelativistic form. bethek_lindhard_X is the corresponding difference, with 999 terms, cut off at zero. For any number of terms the loops equal the sums.", "quantifier": "all projectiles, energies, phase-shift functions, numbers of terms", "why_tests_cant": "The library only ships the resulting tables; the re-use of phase shifts between steps is an invariant over all steps.", "anchors": ["src/calculations.cpp:171-419", "src/calculations.cpp:840-894"]}
{"id": "C55", "title": "hyperg and lngamma", "statement": "For b not a non-positive integer hyperg(a,b,z) returns the partial sum of Kummer's series up to the first n>=1 for which term n or term n-1 is at most 1e-6 in size, and such an n always exists; if the terms at least halve from there on, every later partial sum differs by at most 1e-6; in general it may stop too early (for a=1e-9, b=1, z=100 it stops after one term and differs from all later partial sums by more than 1000). On the positive real axis lngamma is the logarithm of Lanczos' formula, whose series is positive; for negative real part it is Euler's reflection of the value at 1-z; on the imaginary axis it returns the value at 1-z unreflected, so |Gamma(z+1)|=|z||Gamma(z)| fails there. The complex helper functions are the principal argument, the principal square root, an inverse of the exponential away from zero, and Euler's sine. For positive real part lngamma is (z-1/2) log(z+9/2) - (z+9/2) + log(2 pi)/2 plus the logarithm of Lanczos' series in complex arithmetic, wherever that series is not zero.", "quantifier": "all complex arguments", "why_tests_cant": "No test calls these functions; termination and the error are statements about all arguments.", "anchors": ["src/calculations.cpp:840-894"]}
{"id": "C56", "title": "The phase shifts are computed in finitely many steps", "statement": "The series for the wave function inside the nucleus always converges, and its loop returns the two partial sums at the first coefficient not larger than 1e-6 of the sum, which exists if the series is not zero. For every integer charge Z>0, mass, energy and angular momentum k with R*gamma + 1.5 Z alpha <= 1.5 (R the nuclear radius in Compton wavelengths) no argument of hyperg is a pole, the series is not zero, and the phase shift is computed in finitely many steps and lies in (-pi, pi]; hence bethek_lindhard and bethek_lindhard_X return. The phase shift is the principal argument of the regular solution plus H times the irregular one at large distance; H is 0 if the ratio of their normalised upper components at the surface is at most 1e-9 and otherwise makes the quotient of the two components continuous with the one of the series inside; the sign taken from the cosine of the imaginary part of lngamma is the sign of Gamma(1-2s).", "quantifier": "all projectiles with integer charge, energies and angular momenta in the stated range", "why_tests_cant": "Termination for all inputs; the absence of poles is an arithmetic property of the fine-structure constant.", "anchors": ["src/calculations.cpp:171-419"]}
{"id": "C57", "title": "The Lindhard-Sorensen tables agree with the formula at high energies", "statement": "Where bethek_lindhard uses its closed form (gamma >= 10/R, R the nuclear radius in Compton wavelengths), precalculated_lindhard differs from it by at most 6e-6 at every tabulated energy for the standard atomic mass and for 1.05 times that mass, for every Z from 1 to 108. Between the tabulated energies (gamma >= 11/R, below the last energy) it differs by at most 0.0016 for masses between 1 and 1.05 times the standard mass and by at most 0.011 for masses between 0.8 and 1.2 times the standard mass. Above the last tabulated energy precalculated_lindhard is 0 while bethek_lindhard is below -3 for every mass not less than 1.", "quantifier": "all Z from 1 to 108, all energies and masses in the stated ranges", "why_tests_cant": "The interpolation error is a statement about all energies and masses; the tables have 43200 entries for which no test exists.", "anchors": ["include/catima/generated_LS_coeff.h:1-18", "src/calculations.cpp:171-180", "src/calculations.cpp:266-282", "src/calculations.cpp:580-596", "utils/generator.cpp"]}
{"id": "C58", "title": "A MOCADI file contains the layers it was written from", "statement": "Whatever the layers, save_mocadi writes a complete file if the file could be opened and nothing otherwise. Splitting the file at line breaks and commas gives the projectile's energy, mass and charge and the beam sizes, and one MATTER block per layer, in order: for one constituent its mass and charge, otherwise 0 and the database number; then 1000 times the density; then the thickness in cm. With six printed decimals each number is read back to 5e-7 and integers exactly. A database compound is found again at every thickness. Different mixtures that are not in the database can give the same file, a layer thinner than 5e-7 cm is written with thickness 0, and the first block's separator stands on the last line of the beam.", "quantifier": "all projectiles, phase spaces and lists of layers", "why_tests_cant": "The number of layers and the values are unbounded; the writer has no unit test.", "anchors": ["include/catima/convert.h:10-77"]}
{"id": "C59", "title": "The physics formulas are the published ones, with the published constants", "statement": "Up to the rounding of doubles every physics formula of the library equals its published form: nuclear stopping (Ziegler-Biersack-Littmark), Barkas correction (Jackson-McCarthy), the Bethe formula with shell, density and Lindhard-Sorensen corrections, pair production and bremsstrahlung, the collision straggling with its Firsov limit, Rossi's scattering formula, Gottschalk's scattering power, the scattering length, the moments of the angular distribution, the effective charges of Pierce-Blann, Anthony-Landford, Hubert, Winger and Schiwietz, and the low-energy stopping powers of protons, helium and heavier ions. The derived constants agree with CODATA values to the printed digits. The reaction cross section does not: its Coulomb barrier lacks the factor e^2 = 1.44 MeV fm, which changes lead on lead at 30 MeV/u by more than 7 percent. The scattering power of a single element is Rossi's formula with the element's radiation length, and reduced_energy_loss_unit is the reduced energy of the nuclear stopping formula. The angular variances with the Gottschalk power are the density times the quadrature of (d - x)^n times that power, with pv at the depth and at the entrance. The low-energy stopping power of protons in any material is Bragg's sum of the 1995 fits when low_energy is 1 and of the 1985 fits otherwise, and the bits 0 to 3 of corrections switch off the Barkas, Lindhard, shell and high-energy terms.", "quantifier": "all projectiles, targets and positive energies in the domain of each formula", "why_tests_cant": "Tests compare a few numbers with reference values to percent accuracy; a wrong digit or a wrong branch changes results by less than that or at energies not tested.", "anchors": ["include/catima/constants.h", "src/calculations.cpp:23-147", "src/calculations.cpp:421-578", "src/calculations.cpp:616-776", "src/srim.cpp:27-158", "src/reactions.cpp:72-95", "src/catima.cpp:141-182"]}
{"id": "C60", "title": "The stopping powers jump where the code changes from one formula to the next", "statement": "The stopping power is not a continuous function of the energy: wherever the code changes formula without matching the two sides the value jumps. Nuclear stopping falls by more than 0.9 percent at reduced energy 30 for every ion and target. The Barkas factor jumps from 1 at reduced velocity 1 and falls at reduced velocity 4. Bremsstrahlung, with or without pair production, is added all at once above 50000 MeV/u. Hubert's effective charge is 0 below 2.5 MeV/u and more than 5 for carbon at this energy. The stopping power of lithium ions in gold rises by more than 5 percent at the velocity cut near 2.2 keV/u.", "quantifier": "all projectiles and targets for the nuclear, Barkas and high-energy jumps; named ions and targets for the others", "why_tests_cant": "Tests sample energies far from the seams; a jump is visible only by comparing two energies on both sides of it.", "anchors": ["src/calculations.cpp:41-65", "src/calculations.cpp:75-147", "src/calculations.cpp:683-700", "src/srim.cpp:83-158"]}
{"id": "C61", "title": "Every field of a result is what its name says", "statement": "When the ion leaves a layer, the energy width of the result is the stopping power at the exit energy times the square root of the range variance collected between entry and exit, divided by the mass number; in the thin-target branch the variance is the mean of the two slopes times the energy loss. The angular width comes from the angular variance, the position width and the covariance are its second and first moments, and the transmission is the non-reaction probability. The time of flight is ten times the mass number over c times the density times the 8-point Gauss-Legendre sum of one over stopping power times velocity. energy_straggling_from_E and angular_straggling_from_E take the same quantities between two given energies. Entry i of the time-of-flight table is the flight time down to the first energy of the grid. In a stack the energy widths of the layers add in quadrature, and the width is 0 if the ion has stopped.", "quantifier": "all projectiles, materials of nonzero thickness, configurations and consistent memories", "why_tests_cant": "Tests compare single numbers to one percent or worse; a wrong power, a missing mass number or a wrong energy inside a square root passes where the quantity is small.", "anchors": ["src/catima.cpp:183-201", "src/catima.cpp:254-269", "src/catima.cpp:292-356", "src/catima.cpp:358-396", "src/catima.cpp:447-453"]}
{"id": "C62", "title": "The calculator program: input file, text printed, exit status", "statement": "For every content of the input file the program either prints one of four messages, computes nothing and ends with status 0, or ends with status 1 after printing the title, the projectile, the layers, and for each energy in order one block with the nine numbers of each material and the eight totals, all taken from calculate on the stack. For an input with the entries it should have, this is exactly the calculation described by them. Order of the members and members with other names do not matter; the config entry adds one line and changes nothing else; a missing file, unparsable text, or a missing projectile or energy entry gives the message. The block of an energy depends on the energy, the projectile and the layers only. False as stated by the interface: a projectile that is not an array is accepted and the tables are read out of bounds, a charge number is reduced modulo 2^32, a step below 1 is undefined behaviour even when num decides, a compound is announced with density 0 but calculated with its own. The three input files in bin/ are read in double precision as what they say: carbon ions with A = 11.99671 and Z = 6, one energy of 1000 or the ten energies 100, 200, ... 1000 exactly, and foils with the given mass numbers, thicknesses and densities, a missing density of carbon being 2; the second and the third print ten blocks and exit with 1, or the calculation is undefined; the first asks for the effective charge of ATIMA 1.4, and its output is that of the file without this entry after the line that announces it.", "quantifier": "all JSON values, all number formats, all states of the library", "why_tests_cant": "Tests do not run the program; inputs are trees of unbounded size and the malformed ones are never tried.", "anchors": ["bin/catima_calculator.cpp:38-187", "bin/catima_calculator.cpp:191-270"]}
{"id": "C63", "title": "The generated header with the Lindhard-Sorensen tables", "statement": "If the generator can compute its 4 x 108 x 200 corrections it writes a file, otherwise none. Reading the file as a compiler does gives exactly four arrays with the declared names, each with 108 rows of 200 numbers: row z-1, column i of the arrays _a is the printed correction for charge z, the atomic weight of z and energy i, of the arrays _ahi the same with 1.05 times the mass; the arrays X hold the straggling correction. Every brace that is opened is closed and no other. The energies are those at which the library looks the tables up: equal over the reals, equal to 6e-14 in doubles. The shipped tables have this shape and at most six significant digits. False: the file announces LS_MAX_Z = 110, but no array has a row for Z = 109 or 110.", "quantifier": "all correction functions, all number types, all number formats without braces, commas and ends of line", "why_tests_cant": "The generator is not part of the test suite; its output is a file of 86400 numbers which nobody reads.", "anchors": ["utils/generator.cpp:13-18", "utils/generator.cpp:36-50", "utils/generator.cpp:60-139", "include/catima/generated_LS_coeff.h:1-20"]}
{"id": "C64", "title": "The unit tests that need no tables hold of the model in double precision", "statement": "With every test written out as it stands in tests/, with the tolerances of tests/testutils.h: all test cases of test_structures.cpp but the one that calls calculate, all of test_abundances.cpp, and those of test_calculations.cpp, test_reaction.cpp and test_storage.cpp that build no range tables (nuclear and electronic stopping, low-energy stopping of helium and carbon, stopping of protons in water, pair production and bremsstrahlung, radiation and scattering length, effective charges, constants, production rates, the points of the energy grid) hold of the model evaluated in double precision with a computable libm. The tests of the storage (equality of data points, which Add makes a new entry, the index after each of 118 Adds, the index of each point of the grid and of the middle of each interval) hold for every libm accurate to four units of the last place and from every state of the storage. The tests that call calculate and compare results with each other hold of the model for every number type: a second call returns the same result and leaves the same state, the single-quantity functions return the fields of the result, calls with a vector of energies agree with single calls, a first layer computed in a stack equals the same layer alone; and in double precision, for every libm, an ion whose range is below the thickness stops with all the energy lost. The computable libm (exp, log, log10, log1p, pow) is within four units in the last place of the real functions.", "quantifier": "all cases of the tests named; the storage tests: all accurate libms, all leftover values, all states", "why_tests_cant": "The tests are the subject: they show the model computes what the program is expected to compute, and for the storage they are extended from one run to every libm and state.", "anchors": ["tests/test_structures.cpp:10-310", "tests/test_abundances.cpp:10-63", "tests/test_calculations.cpp:11-196", "tests/test_calculations.cpp:501-575", "tests/test_reaction.cpp:33-75", "tests/test_storage.cpp:11-158", "tests/testutils.h:4-40"]}
{"id": "C65", "title": "Range and straggling splines increase where neighbouring table entries vary gently", "statement": "A table is gentle if its entries increase and the slopes of neighbouring chords differ by at most 30 percent of the flatter one. For the spline the code makes from a gentle table on the grid of the library (or any logarithmic grid with at most 4 percent between neighbours), with any two leftovers smaller than 2 in the unset cells of the matrix, the derivative the code computes lies between 0.15 and 1.85 times the slope of the chord at every energy, below and above the grid included, and the value increases strictly between any two energies outside the windows of the lookup, and between any two energies at least 20 tolerances apart. Without the condition on the chords it is false: there are strictly increasing data whose spline decreases. The table of an integral is gentle if the integrand is positive and changes by at most 30 percent where the energy changes by at most 4 percent; for the range table this is a condition on the stopping power alone. After any calls, for an ion with a gentle range table: range() of the larger of two energies is larger, dedx_from_range() is positive, and energy_out() through a layer thicker than the tolerance of its search never exceeds the incoming energy by 20 tolerances; A table is gentle up to a node if this holds up to m intervals beyond the node and every later chord rises by no more than 0.3 times 1.3 to the power m times the chord at the node; below the node its spline increases in the same sense (straggling tables are flat at the top because the table of the straggling factor ends in zeros, so they are gentle only up to a node). For an ion with a gentle range table, a straggling table gentle up to a node and an incoming energy below it, the energy straggling of calculate() behind a layer in which the ion lost energy is the square root of a positive number, so it is positive and never a NaN. For protons in nitrogen with the default low-energy table, the default effective charge or none, and any setting of the corrections (so with all default settings), the stopping power changes by at most 30 percent over 4 percent in energy, so the range table is gentle: after any calls the larger of two proton energies has the larger range and the stopping power read off the range spline is positive. Their straggling table, with either straggling setting, is gentle up to its entry at 2207 MeV, so after any calls the energy straggling of calculate() for a proton that entered a layer of nitrogen with at most 2200 MeV and left it with less energy is positive. For such tables a layer so thin that the ion stays between two grid energies, and 37 times the square of its thickness is at most the tolerance of the search times the range between them, takes from the ion exactly its thickness times the stopping power read off the range spline, divided by the mass number; of two layers whose thicknesses differ by at least two tolerances the thicker one leaves less energy, up to 20 tolerances of the grid. A layer of at most 3 mg/cm2 of nitrogen takes from a proton of 2210 to 2290 MeV its thickness times the stopping power. For protons of at most 2207 MeV in nitrogen nothing in a calculation is undefined: one layer of any thickness, and every stack of at most 100000 layers, each of its own density and thickness, gives a result.  If every chord of a gentle range table has at least the slope m, ranges of energies x < z differ by more than 0.149 m (z - x - 20 eps): so the energy behind a layer (neither 0 nor -1) is within 1e-5 / (0.149 m) + 20 eps of every energy whose remaining range is exact, and a layer taken in n pieces gives the energy of the whole layer to within (n+1) times that. For protons in nitrogen m = 1/2000 holds after any calls, which makes these bounds 0.14 MeV and 0.14 (n+1) MeV.", "quantifier": "Every gentle table, every grid with the stated spacing, every leftover below 2 in magnitude, every pair of energies; at the level of the library every history of calls, ion, material, configuration, thickness and energy.", "why_tests_cant": "The tests compare the splines with reference numbers at a few energies; that the spline never turns over between 600 nodes for whole classes of tables is a statement about infinitely many energies and tables, and the counterexample needs data built for it.", "anchors": ["include/catima/spline.h:119-226", "src/catima.cpp:62-74", "src/catima.cpp:195-232", "src/catima.cpp:304-331"]}
{"id": "C66", "title": "What the build options change", "statement": "The library built with all three options STORE_SPLINES, THIN_TARGET_APPROXIMATION and REACTIONS is the one of the other properties. STORE_SPLINES: for any sequence of calls, none of which asks for the key of an entry that was never written, and with the same leftovers in each spline construction, every call returns the same numbers, or is undefined for the same reason, whether the splines are stored with the tables or made anew in each call; for a key of an entry that was never written this is false. REACTIONS: a call of calculate, for a layer or a stack, that returns with reactions returns without them, with every field but the survival probability the same and the same state of the table cache, and so does any sequence of calls. THIN_TARGET_APPROXIMATION: the results of calculate for a layer agree with and without it in every field but the energy and angular straggling, in the angular straggling too unless the scattering is the tabulated one, and in every field if the outgoing energy does not exceed the limit; the total of a stack agrees in both energies, the energy loss, the time of flight and the survival probability; the state of the cache is the same after any calls; in exact arithmetic, for ions and materials within the tables, a call returns with the option if and only if it returns without it. ET_CALCULATED_INDEX: without it the place in an energy grid is found by std::upper_bound; for every number type and every value, NaN included, the index is one of the grid or -1, so that the splines of the library can be evaluated everywhere, which is false with the option (C19); in exact arithmetic, and in binary64 for every finite value if exp is accurate to a few units in the last place, the interval found holds the value with no tolerance below its energies, except below the last one; evaluation then follows one continuous function through the data, cubic between the energies of the grid and straight outside, everywhere but in the tolerance below the last energy, and the derivative is its derivative; outside the tolerances below the energies both builds return the same numbers, inside they can differ; the linear interpolation in a table still reads past the grid in the tolerance below its last energy. VETABLE, which makes the energy grid an object that computes its energies on every access, changes nothing, in any arithmetic: the three tables are the same lists, the splines have the same coefficients, and wherever the spline on the stored grid has a value or a slope the one on the computed grid has the same; over the reals both have one at every energy.", "quantifier": "Every number type (where exact arithmetic or binary64 is named: that one), every sequence of calls, every ion, material, stack and configuration, both settings of the remaining options, every grid and every value looked up.", "why_tests_cant": "The tests are compiled with one setting of the options; a comparison needs several builds of the library and all inputs.", "anchors": ["CMakeLists.txt:20-29", "build_config.in:4-11", "src/storage.cpp:71-128", "include/catima/storage.h:194-223", "src/catima.cpp:309-354", "src/catima.cpp:379-381", "include/catima/structures.h:241-243", "include/catima/storage.h:53-81", "include/catima/spline.h:117-161"]}
{"id": "C67", "title": "The effective charge in the build with GLOBAL", "statement": "With the build option GLOBAL the model atima14, the default of that build, is, whatever the external function global_qmean returns: for Z <= 28 the Winger charge up to 1000 MeV/u, Z (1 - exp(-180 beta gamma^0.18 Z^-0.82 Zt^0.1)) from 1500 MeV/u on and the straight mixture of the two between; for Z >= 29 the Winger charge up to 30 MeV/u, from 70 to 1000 MeV/u the Pierce-Blann charge plus 1.4 (Zt+1)^-0.28 (1 - exp(-0.04 T)) times the difference of the external charge from it, the same bare-ion formula from 1500 MeV/u on, and straight mixtures between. The charge is continuous in the energy for Z <= 28, and for Z >= 29 if the external charge is continuous and between 0 and Z from 30 to 1500 MeV/u, whatever it is outside. In that case it is at most Z in targets from lithium on, and not negative from 70 MeV/u on; for Z <= 28 and above 1500 MeV/u it is below Z in any case, and above 1500 MeV/u positive and increasing. In hydrogen and helium it exceeds Z from 100 to 1000 MeV/u if the external charge is Z, so that the bound is false there. Every other model gives the same charge in both builds; global gives the external charge for Z >= 29 from 30 to 2000 MeV/u and is unchanged elsewhere; the default settings differ in the model alone. The stopping power, the energy-loss variance and the three tables of a stored entry are the same in both builds for every choice of the charge except atima14 and, for Z >= 29, global; up to 10 MeV/u the stopping power is the same for every choice. With atima14 the charge is positive for 1 <= Z <= 28, and for Z >= 29 not negative if the Winger charge is in its range and the external charge is not negative and, in hydrogen and helium, at least 2/7 of the Pierce-Blann charge. Then, for atima14, for global and for the choices of C52, the stopping power of an ion of charge 1 to 108 in a material of known elements is positive wherever it has a value, which fails only in the last 2e-15 MeV/u below the end of the correction tables; the three tables have 600 values each for every external function, the ranges strictly increase, and the straggling never decreases up to 400 GeV/u whatever the external function returns.", "quantifier": "Every external function, projectile charge, target, energy and configuration.", "why_tests_cant": "The external program is not part of the source; the tests need it and compare a handful of charges of uranium with a tolerance.", "anchors": ["src/calculations.cpp:638-671", "src/calculations.cpp:749-763", "src/calculations.cpp:778-833", "include/catima/config.h:61-73", "src/calculations.cpp:64-123", "src/calculations.cpp:616-636", "src/catima.cpp:31-60", "src/catima.cpp:409-445"]}
{"id": "C68", "title": "The survival probability in the build with NUREX", "statement": "With the build option NUREX the reaction cross section is an external function, taken here as any function that may also fail. If it is SigmaR_Kox of this library, nonreaction_rate is the one of the other properties. If inside the layer the cross sections of all constituents lie between s1 >= 0 and s2, and the ion leaves the layer with at least 30 MeV/u, the result lies between exp(-1e-4 n s2) and exp(-1e-4 n s1), n being the number density per cm2, up to a factor 1 +- 1e-20 on the cross section; if they all equal s the result is exactly exp(-1e-4 n s). It is -1 if the ion starts or leaves below 30 MeV/u and 1 without material. For every cross section that always returns a value, nonreaction_rate is defined after any calls for every ion with 1 <= Z < 109, and keeps the cache valid.", "quantifier": "Every external cross section, every energy-loss function, ion, material and state of the cache.", "why_tests_cant": "The tests are never built with this option, and the external function is not part of the project.", "anchors": ["src/reactions.cpp:8-57", "build_config.in:10", "include/catima/reactions.h:54-65"]}
{"id": "C69", "title": "The stopping power read off the range spline agrees with the stopping power", "statement": "Let the stopping power be positive and change by at most the fraction g, at most 0.3, where the energy changes by at most 4 percent. Then the chords of the range table are positive and neighbouring ones differ by at most the fraction g of the flatter one; for any data with this property on a logarithmic grid with at most 4 percent between neighbours the derivative of the spline differs from the slope of the chord of the interval it is taken in by at most 1.99 g times that slope for g up to 0.1 and 2.79 g above. After any calls, for any energy T inside the grid and g at least 1e-6: with k = 2g for g up to 0.1 and 2.8g above, dedx_from_range(T) = d and dedx(T) = e satisfy (1-k) d <= (1+g) e and e <= (1+k)(1+g) d. The field dEdxi of the result of calculate() satisfies this with the stopping power at the incoming energy, and dEdxo with the one at the outgoing energy. Protons in nitrogen satisfy the condition with g = 0.3. A layer so thin that the ion stays within its interval of the grid (the condition of C65) takes from the ion an energy that agrees in the same sense with the thickness times the stopping power, divided by the mass number; this applies to protons of 2210 to 2290 MeV and at most 3 mg/cm2 of nitrogen.", "quantifier": "Every ion with Z from 1 to 108, material, setting and energy for which the condition holds; every sequence of earlier calls; any leftovers smaller than 2 in the unset cells of the spline matrix.", "why_tests_cant": "tests/test_dedx_range.cpp compares the two at sampled energies for a few ions; the quadrature, the solution of the spline matrix and the lookup all enter, at every energy between two grid points.", "anchors": ["src/catima.cpp:69-74", "src/catima.cpp:288", "src/catima.cpp:308", "src/spline.cpp:1-120", "tests/test_dedx_range.cpp:44-80"]}
{"id": "C70", "title": "The build with GSL interpolation uses pointers that were never set or already freed", "statement": "With GSL_INTERPOLATION and STORE_SPLINES (on by default) Data::Add destroys a DataPoint whose interpolators were default constructed, so it frees two pointers that were never set: in every state, for every argument, Add is undefined, nothing is ever stored, and no call of range() returns. If the memory of those objects happens to be zero, Add returns, but each interpolator it stores is a copy of a temporary that has already freed its objects: in every state reached by any calls of Add, Get and Reset every evaluation and every derivative of every stored interpolator is undefined, so again no call of range() returns, and once an entry was added the end of the program and Reset free the same objects again. Without STORE_SPLINES the interpolators live as long as they are used: for 3 or more values and at least as many energies the result is the one of the GSL spline of these data at the energy moved to the nearest one of the grid, and afterwards exactly the objects allocated before are allocated. A spline that passes through its data thus gives the first value at all energies below the grid and the last at all above.", "quantifier": "Every projectile, material and setting, every calculation of tables, every sequence of Add, Get and Reset, any functions for the spline of GSL and its derivative, any number type for the statements on memory.", "why_tests_cant": "The option is off in the tests, and a freed object often still holds its data, so a run can look right.", "anchors": ["include/catima/storage.h:141-160", "include/catima/storage.h:205-226", "src/storage.cpp:37-69", "src/storage.cpp:84-140", "src/catima.cpp:62-67", "CMakeLists.txt:25"]}
