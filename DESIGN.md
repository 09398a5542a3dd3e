# catima: machine-checked model

Subject: hrosiak/catima at the pinned commit, read as text from `/repo`; nothing of it is built or run.
Prover: Coq 8.16.1. All files under `rocq/theories`, logical prefix `Verif`.

## 1. Configuration that is modelled

The default CMake configuration: `REACTIONS`, `STORE_SPLINES`, `THIN_TARGET_APPROXIMATION`,
`ET_CALCULATED_INDEX` on; `GLOBAL`, `GSL_*`, `NUREX`, `VETABLE` off; Release (`NDEBUG`, so `assert`
is a no-op; where an `assert` matters the comment says so).  `Builds` makes the first three options parameters,
`Search` has the lookup without the fourth, `Vetable` the splines and tables with `VETABLE`, and C66 says what each of them changes.  `GlobalCharge` has the effective
charge with `GLOBAL` on and `GlobalStopping` the stopping power and the tables computed with it, the external function
being an argument (C67); `Nurex` has the survival probability with `NUREX` on, again with the external function as an
argument (C68); `Gsl` has the interpolators and the storage with `GSL_INTERPOLATION` on (C70).

## 2. Arithmetic

The model is written once, generically, over a class `Num F` of the operations the C++ code
applies to `double` (decimal literals, + - * /, comparisons, sqrt, exp, log, log10, log1p, pow,
floor, conversion to int).  It is instantiated at

* `R` (Coq reals): exact arithmetic.  Theorems that are about inequalities, identities and limits
  are proved here.  They say nothing about rounding unless a theorem named `*_binary64` does.  `x/0`, `sqrt` of a negative, `ln` of a
  non-positive number are totalised in Coq's library; theorems carry the hypotheses that keep
  their arguments inside the domain.
* primitive binary64 floats, with the libm functions as parameters (`Libm`): round-to-nearest IEEE
  arithmetic, no fused operations, no extended precision.  Used for concrete witnesses
  (`vm_compute`), for running the model on the repository's own test cases, and for the rounding
  theorems below.
* any `F` whatever: structural theorems (cache, layer stacks, dispatch, control flow, memory
  safety) are proved for an arbitrary `Num F`, hence also for binary64 with NaN and infinities.

Rounding: `Binary64` and `Binary64Num` relate each float operation to the rounded real operation with
Flocq's theorems (`Flocq.IEEE754.PrimFloat`), and the theorems named `*_binary64` bound the error of, or prove the
ordering of, what the code computes in doubles.  Where exp or log of libm matters the hypothesis is `accurate lm`
(`exp_accurate`, `log_accurate`): finite results within 4 units of the last place on the range used.  It is met
by `rounded_libm`, which rounds the real functions (`rounded_accurate`).  The grid, its lookup, the
spline at its knots, interpolation in the Lindhard tables, the quadrature, the tables, the outgoing energy, the energy balance of a layer, the energy loss and survival of a
stack, the kinematics, the reaction and production probabilities and the calculator's energy grid have such theorems; for everything else the real-number theorems say nothing about rounding.

The unit tests of the repository (C64): the test cases that build no range tables are written out in `PropTestStructures`,
`PropTestCalculations` and `PropTestStorage` and proved of the model in binary64, by computation in the kernel with a libm made of
integer arithmetic (`LibmZ`; each of its five functions is proved within four units in the last place of the real function in `LibmZProofs`, stated in `PropLibm`),
the storage tests for every accurate libm; the test cases that compare the results of several calls of `calculate` are proved in `PropTestCalls` for every
number type, with hypotheses on the state of the storage in place of the numbers.  This is evidence that the
transcription computes what the program is meant to compute; the tests' tolerances are often several percent.
Not covered: the test cases that call `calculate` or `range` (the tables of one material take some 10^4 stopping powers) and those
that sum the Lindhard-Sorensen series; an early extraction to OCaml, not in this repository, was compared by eye with about 70 checks, many of these, without disagreement.

## 3. Undefined behaviour

Functions that may index out of bounds, read an uninitialised variable, dereference null, follow a
dangling pointer, invalidate an iterator, overflow an int, or convert an unrepresentable double to int
return `outcome A := Ok a | UB why`.  `UB` is never silently turned into a value.  Global state (the table
cache `_storage`, the mutable `default_config`) is threaded explicitly (`world`).

The spline constructor reads two matrix elements that were never written.  Strictly that is undefined
behaviour of every call; the value model lets an oracle `junk : nat -> F * F` choose the two values for each
construction, so theorems quantify over them, and `SplineMem.v` is the memory-level version in which the
reads are seen to be of unwritten cells (C23).

## 4. What is modelled / not modelled

Modelled, function by function (each definition cites file and lines):

| file | models |
|------|--------|
| Num, NumR, NumF | the arithmetic interface and its two instances |
| Structures | structures.{h,cpp}, config.h, constants.h: Target, Projectile, Material, Layers, Phasespace, Result, Config and their operators |
| Vector | std::vector push_back with capacity and iterator invalidation, for Layers::add |
| EnergyTable | storage.h: EnergyTable, EnergyTable_interpolate, LinearVArray, LogVArray, both index variants |
| Spline, SplineMem | spline.h: tridiagonal_matrix, trig_solve, cspline_special; values and memory |
| Integrator | glq_integrator.h, gkq_integrator.h: all rules, adaptive driver, get_points |
| Srim | srim.cpp |
| Calculations | calculations.cpp except the functions of the next row |
| Lindhard, TrigR | calculations.cpp:171-419, 840-894: complex arithmetic, `hyperg`, `lngamma`, `bethek_lindhard`, `bethek_lindhard_X` (used to generate the tables). Loops without a static bound take a fuel; `None` means more fuel is needed. TrigR gives sine, cosine and atan2 on the reals; there is no binary64 instance of these functions |
| NucData, Data* | nucdata.cpp, abundance_database.cpp, material_database.cpp, data tables |
| Reactions | reactions.{h,cpp} without NUREX |
| Storage, StorageHeap | storage.cpp: Data, DataPoint, Interpolator; values, and a heap with buffers, moves, copies and frees |
| Threads | Data::Get as small steps of several threads |
| Catima | catima.cpp |
| Builds | catima.cpp, storage.cpp and reactions.cpp with the build options `STORE_SPLINES`, `THIN_TARGET_APPROXIMATION`, `REACTIONS` as parameters; without REACTIONS the field `sp` is kept at 1 |
| Search | storage.h:53-81 and spline.h:117-161 without `ET_CALCULATED_INDEX`; std::upper_bound is the halving search of the standard library, written out with its reads |
| Vetable | storage.h:134-138, :184-190, storage.cpp:22-26 with `VETABLE`: spline.h:104-231 and the tables of catima.cpp:404-445 on a LogVArray |
| GlobalCharge | calculations.cpp:638-671, :749-763, :778-833 and config.h:61-73 with `GLOBAL`; `global_qmean` of the external program is an argument, any function |
| GlobalStopping | calculations.cpp:64-123, :616-636 and catima.cpp:31-60, :130-132, :409-445 with the charge of GlobalCharge: `dedx_G`, `domega2dx_G`, the three tables |
| Nurex | reactions.cpp:8-57 with `NUREX`; the cross section of the external library is an argument, any function, which may fail |
| Gsl | storage.h:141-160, :205-226 and storage.cpp:37-140 with `GSL_INTERPOLATION`, with and without `STORE_SPLINES`: a heap of GSL objects, pointers that are indeterminate, null or addresses; the spline of GSL is an argument, any function; addresses are not used twice; what a default constructor leaves in the pointers is a parameter |
| CWrapper | cwrapper.cpp |
| Convert | convert.h: the MOCADI writer; the file is the string written, number formatting is a parameter |
| Calculator | grid, config and material handling of bin/catima_calculator.cpp |
| CalculatorMain | main, load_json and json_material of bin/catima_calculator.cpp on parsed JSON values: exceptions, text printed, exit status. The number format, std::stod and the JSON parser are parameters; what is assumed of the JSON library is in the head of the file |
| LibmZ | no part of catima: exp, log, log10, log1p, pow by integer arithmetic, to evaluate the unit tests (C64); LibmZProofs: the error of each |
| Generator | utils/generator.cpp: the text of generated_LS_coeff.h; the number format is a parameter, terminal output and file system errors are left out |

Data tables are transcribed mechanically from `/repo` by `tools/gen_tables.py`.

Not modelled: `GSL_INTEGRATION` and what GSL itself computes, the external programs behind `GLOBAL` and `NUREX`, file I/O other than the text written by `save_mocadi` (write errors after a successful open are not), JSON parsing, printing of numbers, Python bindings, compiler and
libm accuracy, heap exhaustion, the physical accuracy of the formulas.

Simplifications worth knowing (also in the comments at the definitions):

* `Data::Add` move-assigns a DataPoint whose spline members have not been built; copying their indeterminate
  doubles is modelled as copying the value `HIndet`, not as undefined behaviour.
* Threads: each small step is atomic and sees all earlier steps (sequential consistency).  In C++ the
  conflicting accesses are data races and undefined; the bad schedules shown are therefore a lower bound on
  what can go wrong, and the safe cases (C07_hits, no writer at all) are race-free.  In C07_one_writer a
  reader whose scan passes the entry being replaced does race with the writer; the theorem is about the
  interleavings only.
* `int` products and sums of caller-supplied numbers are checked (`imul`, `isub`, `iinc`; overflow is the outcome
  `SignedOverflow`).  Index arithmetic such as `z-1` is mathematical; where it could overflow, the array access
  that follows is out of bounds and undefined anyway.

## 5. Where the properties are proved

Specifications are written with ordinary lists / reals / relations beside the theorems.  Mutation tests are
recorded in `seeded/LOG.jsonl`; a property not named there has not been mutation-tested.
Each property has an `Example` with a concrete instance (C13 and C14 in PropThin).
In the log, "failed" lists theorems whose proof script no longer goes through on the edited program.
`*_refuted` theorems exhibit an input for which the natural claim is false of the code.

| id | file | how proved |
|----|------|------------|
| C01-C04, C06 | PropCache, PropFactor (CacheProofs, CacheFresh, KeyEq, History, ApiCache) | invariant over histories: each written slot holds tables computed from a key == to its own; congruence of the table computation under ==; cursor arithmetic modulo 60 |
| C05 | PropHeap | simulation between the heap model and the value model; ownership invariant of buffers |
| C07 | PropConc (ThreadProofs) | invariants over schedules of small steps; bad schedules by construction |
| C08-C11 | PropEnergyOut (EnergyOutProofs), PropEnergyFloat | induction on the loop counter over arbitrary range functions; triangle inequality over layers; map lemmas; rounding of the residual with Flocq |
| C12-C17 | PropLayers, PropThin, PropTof (LayerProofs), PropResultFloat | case analysis; separate covariance-transport specification; induction over layers; rounding errors of sums and products added up by induction |
| C18, C19, C25 | PropGrid (GridProofs, InterpProofs), PropWindow, PropLogArray, PropGridFloat, PropLindhardFloat (Binary64, Binary64Num, Binary64Lit) | monotonicity of exp, floor bracketing; float witnesses by computation; rounding errors propagated with Flocq |
| C20-C24 | PropSpline (SplineProofs), PropSplineFloat | induction over the rows of the elimination, algebra; products with an exact zero |
| C26, C27 | PropQuad, PropKronrod (QuadProofs), PropTableFloat | algebra over the node list; moments by rational computation; recursion over the bisection tree |
| C28 | PropTables, PropApi, PropTableFloat | positivity of the quadrature; relative errors of sums of non-negative terms |
| C29-C31 | PropMaterial | induction over constituents / layers; aliasing as UB |
| C32-C35 | PropData (SpecData, DataProofs) | computation over the table range, arithmetic outside it; formulas parsed by a small separate parser |
| C36 | PropKin, PropKinFloat (BinaryRel) | real algebra; relative rounding errors with Flocq |
| C37, C38 | PropDedx (BoundsProofs, TotalProofs); C38 in doubles: PropSafeFloat (BoundsAny) | case analysis; every access shown in bounds |
| C39 | PropMixture | permutation lemmas |
| C40-C43 | PropZeff, PropCorr, PropSrim; Winger's charge: PropWinger (bounds of logarithms computed as integers) | real analysis, row-wise computation of table facts |
| C44, C45 | PropReact, PropRateFloat | exp inequalities, derivatives; in doubles relative errors with an accurate exp |
| C46, C47 | PropRad, PropScatter, PropFactor | induction; Cauchy-Schwarz over the quadrature |
| C48, C49, C51 | PropApi; C49 in doubles: PropCalcFloat | state-machine equations; independence of the history from C01 |
| C50 | PropStrag (StragTables) | computation over the table, interpolation bound |
| C52 | PropBethe (BetheProofs, BetheBracket); with Winger's and the global charge, and without the Barkas correction: PropWinger | bounds on each correction of the Bethe formula (table checks, Bernoulli-type inequalities for powers) |
| C53 | PropSafe (ApiTotal, Cases); in doubles: PropSafeFloat | every function of the interface shown defined; induction over the calls; in doubles the lookups, the spline functions and energy_out |
| C54 | PropLindhard (Lindhard, TrigR) | invariant: the carried values are the phase shifts of the previous step |
| C55 | PropHyperg, PropShift | term ratios tend to 0; least index by search; positive polynomial for Lanczos' series; polar form of atan2, squares of the root |
| C56 | PropPhase, PropShift (PropHyperg) | geometric decay of the coefficients; Gauss' lemma for the absence of poles; the value of a phase shift by unfolding once and the matching equation |
| C57 | PropLSTable (LnBounds, LSTable) | logarithms bounded with integers; the entries checked by vm_compute; error of linear interpolation |
| C58 | PropConvert | a reader of the file format, independent of the writer, applied to the text; decimal digits by induction |
| C59 | PropFormula, PropFormulaSrim, PropKox, PropOptions | unfolding to the textbook form; constants by rational arithmetic, pi by Machin's formula |
| C60 | PropJump, PropJumpSrim | the formulas of C59 compared on both sides of the seams |
| C61 | PropResult | inversion of `calculate`; the memory is only read, so every field is a function of the data of the material |
| C62 | PropProgram, PropProgramR, PropSamples | a run is text and a value or an exception; the input is described by relations on JSON values (`says`), the report by a list of lines (`full_report`); independence of the energies from C01 |
| C63 | PropGenerator, PropGeneratorTables | a scanner of nested braces (`arrays`) written independently of the generator reads the text back; grid against et_make over the reals and in binary64; digits of the shipped tables by computation |
| C64 | PropTestStructures, PropTestCalculations, PropTestStorage, PropTestCalls, PropLibm | every CHECK as a boolean over the model, `near`/`near_R` after tests/testutils.h, `vm_compute`; storage: the slots seen through their keys, run for an arbitrary accurate libm; calls: the storage lemmas of C17–C19, `calculate` unfolded once per call; libm: Taylor and atanh series with remainder, error of the fixed-point Horner scheme |
| C65 | PropMono, PropMonoApi, PropMonoProton, PropMonoStrag, PropMonoOut, PropMonoProtonOut, PropMonoStack, PropMonoSteep, PropMonoProtonSteep (SplineMono, Near, ProtonStopping, ProtonLindhard, ProtonHigh, ProtonBethe, ProtonStrag, ProtonOmega) | curvatures bounded by weighted neighbouring chords (the tridiagonal rows are dominant with weights), so slopes stay within 85 percent of the chord; refutation: one curvature at the third grid energy plus a flat line; library: Gauss rule on an interval of the logarithmic grid is the dilated rule of its neighbour; protons: every factor of the stopping power and of the variance bounded over a step of 4 percent; thin layers: distance of a piece from its tangent by the bounded curvatures, so the search ends at its first point; accuracy: the spline minus 14.9 percent of the least chord slope still increases, and for protons in nitrogen every chord slope is at least 1/2000 since the stopping power is nowhere above 1900 MeV cm2/g |
| C66 | PropBuilds, PropSearch, PropSearchFloat, PropVetable | a relation between the states of the two libraries (same entries, the splines of the one being those the other would construct) kept by every call; the results compared field by field; `touched` excludes the key of an entry that was never written, where the builds differ; the searched index against the grid itself (`at_`, `brackets` of C18/C19) and the evaluated spline against a continuous function through the data, as in C20 |
| C67 | PropGlobal, PropGlobalDedx | `bare`, `weight`, `moved` written with the published constants; the ranges of energy include their ends, so each pair of formulas is shown to agree where it meets; Winger and Pierce-Blann enter as `z_effective` with that setting; continuity and bounds are statements about `z_effective_G` alone; positivity, definedness and the order of the tables speak about `dedx_G` and the table functions themselves, the condition `global_fair` is about the external function alone |
| C68 | PropNurex | `survival`, the law of attenuation, written with the unit 1e-4 of the documentation; the mean over the constituents bounded by induction, the quadrature by C26 (monotone, exact for constants) |
| C69 | PropClose (SplineClose) | the bounds of C65 on the curvatures with the variation g left open; the chord is the mean of 1/dedx by the rule (C26, exact for constants up to 1e-20), so it is within 1+g of 1/dedx at every energy of the interval; the lookup window is covered since 4 percent exceeds the spacing of the grid |
| C70 | PropGsl | `sane` (addresses held are below the next, none twice) and `gone` (null or not held) describe the memory; `reached` is the closure of the first state under Add, Get and Reset; the invariant is that every pointer in the storage is gone |

## 6. Trusted base

* Coq's kernel including its VM for `vm_compute` (coqchk re-checks without the VM).
* The axioms `Print Assumptions` prints after each theorem; `AXIOMS.md` lists them per theorem.  They are
  the standard library's: `ClassicalDedekindReals.sig_forall_dec`, `sig_not_dec`,
  `FunctionalExtensionality.functional_extensionality_dep`, `Classical_Prop.classic` (via the reals), and for
  binary64 theorems the primitive float and int operations and some of their `FloatAxioms`.  The first group of
  `AXIOMS.md` uses none.  No axiom is added here.  Flocq is used for rounding; it adds no axiom either.
* The reading of the C++ text recorded in the comments of the model, and `tools/gen_tables.py`.

## 7. Behaviour of the code one would not expect

Each line names the theorem that shows it (refuted expectations, or unusual equations the code does satisfy).

| where | what | theorem |
|-------|------|---------|
| Data::Get | a key equal to a blank slot's default key is served that slot, whose splines have no table | C05_default_refuted, C05_default_binary64_refuted |
| operator== of the keys | tolerances make it non-transitive; NaN density or scattering factor matches everything | C06_transitive_refuted, C06_nan_refuted |
| cache of angular tables | a scattering factor within 1e-3 of an earlier one gets the earlier one's table | C01_angular_table_refuted, C01_factor_history |
| DataPoint copy | the copy's splines point into the original's buffers | C05_copy_dangles |
| Data::Get in threads | wrong entry, lost entry, half-built entry, write past the end, reused reference | C07_refuted, C07_lost_entry_refuted, C07_half_built_refuted, C07_overrun_refuted, C07_reference_refuted |
| energy_out | the first Newton iterate is not checked against 0 and can be returned negative | C09_first_iterate_refuted |
| calculate | time of flight uses `default_config`, not the config passed | C13_tof_ignores_config, C13_tof_changes |
| calculate(Layers) | energy balance fails for entrance energies between 0 and the cutoff | C15_balance_refuted |
| EnergyTable::index | binary64: out of bounds at the last energy; NaN converted to int | C19_binary64_refuted, C19_nan_refuted |
| cspline_special | off-diagonal elements exchanged and two never written: kinks at the nodes, jumps in the tolerance window | C21_kink_refuted, C20_continuity_refuted, C23_reads_uninitialised |
| cspline_special | the spline of strictly increasing data can decrease | C65_increasing_refuted |
| EnergyTable_interpolate | without ET_CALCULATED_INDEX, too, the tolerance below the last energy makes it read past the grid | C66_search_interpolate_refuted |
| z_eff_atima14 | with GLOBAL, in hydrogen and helium, an ion found fully stripped gets a charge above Z | C67_excess, C67_bound_refuted |
| InterpolatorGSL | with GSL_INTERPOLATION the default constructor leaves two pointers unset which the destructor frees, and a copy shares the pointers of a temporary | C70_add_indeterminate, C70_stored_dangles, C70_end |
| get_range_spline | without STORE_SPLINES a call for the default projectile and material reads 600 values of an empty table, where the default build returns if no energy is asked for | C66_untouched_refuted |
| get_points | Gauss-Kronrod points and odd Gauss-Legendre points are not the nodes | C27_points, C27_points_odd |
| Material | mixed weight/number constituents; weight-fraction add_element; Layers::add(self) invalidates its iterator | C29_mixed_refuted, C29_stepwise_weights_refuted, C31_add_self |
| material database | sodium carbonate, polyolefin, photo emulsion compositions | C32_*refuted |
| get_isotope_a | negative or INT_MAX index | C33_negative_index_refuted |
| materialdb_id | entries 348 and 349 are never found | C35_not_found |
| dedx, dedx_variance | Z >= 109, Z <= 0, target Z <= 0, and the last 2.3e-15 MeV/u of the tables read out of bounds | C38_*refuted, C53_window_refuted; in doubles at 1e7: C38_binary64_refuted |
| effective charges | Anthony-Landford negative at low energy; global formula takes the energy for a velocity and returns -1 for heavy ions; atima14 returns 0; Schiwietz exceeds Z; Winger is negative for Z = 108 in hydrogen at 10 GeV/u (the debug build's assert would stop there) and falls from more than 88 to fewer than 70 charges for uranium in hydrogen | C40_*refuted, C40_atima14 |
| density effect | negative for astatine | C41_density_sign_refuted |
| radiation_length | wrong sign of one Coulomb-correction term | C46_coulomb_sign_refuted |
| scattering | Highland and Gottschalk correction factors negative for thin depths | C47_highland_refuted, C47_gottschalk_refuted |
| C wrapper | catima_range ignores the energy; effective-charge selection is not applied to every function | C48_range_refuted, C48_selection_refuted |
| production_rate | binary64: exactly 0 for a foil of 2^-44 g/cm2 although the rate is positive | C45_binary64_refuted |
| calculator | the energy step is not the step asked for | C49_step_refuted |
| calculator | a projectile that is not an array is taken as A = Z = 0 and the tables are read out of bounds | C62_projectile_refuted, C38_uncharged_refuted |
| calculator | charge numbers are reduced modulo 2^32 | C62_charge_refuted |
| calculator | a step below 1 becomes 0, the quotient is converted to int although num is given | C62_step_refuted |
| calculator | warning about density 0 for a compound that has one | C62_warning_refuted |
| generator | LS_MAX_Z is written as 110, the tables end at Z = 108 | C63_rows_refuted |
| straggling tables | zeros in the tables make the variance negative at high energy | C50_negative_refuted |
| hyperg | stops when one term is small although later ones may be large | C55_hyperg_refuted |
| lngamma | on the imaginary axis the reflection formula is not applied | C55_axis_refuted |
| precalculated_lindhard | above 10^7 MeV/u the correction jumps from at most -3 to 0 | C57_beyond |
| save_mocadi | mixtures outside the database are written as 0, 0; layers below 5e-7 cm as thickness 0; the first separator is on the beam's last line | C58_mixture_refuted, C58_thin, C58_separator |
| SigmaR_Kox | the Coulomb barrier lacks e^2 = 1.44 MeV fm | C59_kox_barrier_refuted |
| srim_dedx_e, helium | the factor sqrt(E) below 1 keV/u is applied to the energy already clamped to 1 and has no effect | C59_helium |
| dedx_n | jumps down by 0.9 percent at reduced energy 30 | C60_nuclear |
| bethek_barkas | jumps at reduced velocities 1 and 4 | C60_barkas |
| bethek_dedx_e | the high-energy terms are added all at once above 50000 MeV/u | C60_highenergy |
| z_eff_Hubert | 0 below 2.5 MeV/u | C60_hubert |
| srim_dedx_e, heavier ions | in targets with fast electrons the value jumps at the velocity cut, by 5 percent for lithium in gold | C60_heavy_ion |
