# Formal model of hermes-3: design

The code in `/repo` (bendudson/hermes-3, pinned) is modelled in Gallina under
`rocq/theories`, and the properties listed in `properties.jsonl` are stated and
proved about that model with Coq 8.16.1.  The code itself is never run here:
the tie between code and model is the citation (file and lines) on every model
definition.

## 1. How the model is organised

For each area `X` of the code there are up to four files:

* `XModel.v`  - the model: small total functions mirroring the C++ functions,
  each with a comment citing file and lines.  No proofs.
* `XSpec.v`   - the specification used by the property statements (sums over
  species, sums over cells, "lies between", mirrored inputs, ...), written
  without reference to the helpers of the model.  Small specs are stated
  directly in the property file.
* `XProofs.v` - lemmas.
* `XProps.v`  - only the property theorems (`exact lemma.`), the `Example`s which
  show a concrete case meeting the hypotheses, and `Print Assumptions`.

Two styles of model are used.

1. *Protocol / control logic* (state entries, scheduler, parsers, controllers,
   restart, index arithmetic): executable functions over lists, strings, `nat`,
   `Z` and records; C++ exceptions and undefined behaviour are explicit
   outcomes (`Throw`, `UB`), never silently totalised.
2. *Numerics*: `BoutReal` is modelled by the real numbers `R` of the standard
   library.  Rounding, overflow, NaN and infinities are therefore idealised
   away except where a definition says otherwise (the state protocol keeps an
   abstract "is finite" test, since the code branches on it, and C99 rounds every operation of
   the limiters and of parallel transport).  Pointwise field
   expressions are modelled at one arbitrary grid point; stencil operators are
   modelled on lines/planes of cells indexed by `nat`/`Z` of arbitrary size, with the C++
   accumulation loops (`result[i] += ...; result[i+1] -= ...`) as folds of
   updates.  Derivatives supplied by BOUT++ (`Grad_par` etc.) enter as arbitrary
   values, so theorems hold whatever these operators return.

Components which only talk to the shared state are modelled in a small
error/state monad over a store `(species, quantity) -> entry`, built on the same
`get/set/add/subtract` functions as the protocol properties, so that the
conservation theorems are statements about the state after the component ran,
including the case of unset entries and of exceptions.

## 2. Trusted base

* Coq 8.16.1's kernel, with its virtual machine where a proof evaluates integers by `vm_compute` (and `coqc`'s parser/elaborator for the statements).
* What `Print Assumptions` lists for each theorem.  Control-logic theorems are
  *closed under the global context*.  Theorems about reals use only the standard
  library's axioms: `ClassicalDedekindReals.sig_forall_dec`,
  `ClassicalDedekindReals.sig_not_dec`, `FunctionalExtensionality.functional_extensionality_dep`
  (all three come with `Coq.Reals`); `Classical_Prop.classic` (also standard
  library) appears where a proof goes through `exp`/`ln`/`sqrt`/`Rpower` or through analysis lemmas.
  Section 7 lists them per theorem.  No axiom, parameter, functor or module
  type is declared by this development.
* The reading of the C++ by the author of the model, i.e. that each definition
  does what the cited lines do.
* BOUT++ behaviour, whose source is not in `/repo` (the submodule directory is
  empty).  Assumed: `strsplit` splits like repeated `std::getline` (a trailing
  empty item is dropped); `trim(s, chars)` strips these characters from both
  ends; `Options` children are kept in a `std::map` (sorted by key); `Options::force`
  replaces the value and keeps the attributes; `floor(f, x)` on a field is
  applied point by point; `PhysicsModel` calls `restartVars` once after
  initialisation with the loaded restart data (possibly empty); communication fills
  guard cells with the neighbour's values; `FV::MC`, `FV::MinMod`, `FV::Upwind`
  are the published limiters.
* Build configuration: `CHECKLEVEL >= 1` (the default of BOUT++ is 2), so
  `get`/`set` keep the read marks.

## 3. What is modelled and what is not

Modelled (every definition cites file and lines; `include/` and `src/` pairs are meant):

| Model file | Code |
|---|---|
| OptionsModel, StateMonad | component.hxx, component.cxx (get, set, add, subtract, setBoundary, isSet and their marks) |
| SchedulerModel, StrModel, TransformModel | component_scheduler, Hermes::rhs, transform, splitting and trimming of strings |
| CollisionsModel, ThermalForceModel | collisions, thermal_force |
| ReactionsModel, AmjuelTables | amjuel_reaction, amjuel_hyd_ionisation, amjuel_hyd_recombination, amjuel_helium, adas_reaction, hydrogen_charge_exchange |
| RadiationModel | fixed_fraction_radiation, radiation, ionisation, solkit_hydrogen_charge_exchange |
| LimitersModel, ParallelModel, DiffusionModel, PerpModel, ExBModel | limiters, cellAverage (integrate.hxx), all finite-volume operators of div_ops |
| SheathModel, WallsModel | sheath_boundary, sheath_boundary_simple, sheath_boundary_insulating, noflow_boundary, neutral_boundary, recycling |
| EvolveModel | evolve_density, evolve_pressure, evolve_energy, evolve_momentum, ion_viscosity, electron_viscosity |
| ClosureModel | quasineutral, zero_current, electron_force_balance, fixed_fraction_ions, sound_speed, classical_diffusion, scale_timederivs, simple_pump, sheath_closure |
| ControlModel | detachment_controller, upstream_density_feedback, temperature_feedback |
| FieldsModel, DriftModel | electromagnetic, diamagnetic_drift, polarisation_drift, relax_potential, vorticity (boundary of phi, diamagnetic, collisional and damping terms) |
| NeutralModel | neutral_mixed |
| MetricModel, UnitsModel | recalculate_metric and the normalisation of the metric in hermes-3.cxx, decay-length boundary, normalisations and conversion factors |
| TransportModel | src/anomalous_diffusion.cxx (constructor coefficients, transform), src/binormal_stpm.cxx (transform), src/neutral_parallel_diffusion.cxx and its constructor, src/solkit_neutral_parallel_diffusion.cxx and its constructor, include/simple_conduction.hxx (`FV::Div_par_K_Grad_par` belongs to BOUT++ and is taken to be the copy in src/div_ops.cxx; boundary conditions on one guard cell; diagnostics are not modelled) |
| RegistryModel | the RegisterComponent lines and templates of include/adas_carbon.hxx, adas_lithium.hxx, adas_neon.hxx, amjuel_hyd_ionisation.hxx, amjuel_hyd_recombination.hxx, amjuel_helium.hxx, hydrogen_charge_exchange.hxx, solkit_hydrogen_charge_exchange.hxx; axes and shapes of the json_database files they read (the numbers of "log_coeff" are arbitrary in the theorems) |
| SimpleModel | src/isothermal.cxx, include/fixed_density.hxx, fixed_temperature.hxx, fixed_velocity.hxx, set_temperature.hxx at one grid point (outputVars is not modelled) |
| FullVelModel | src/full_velocity.cxx and include/full_velocity.hxx (constructor, transform, finally; BOUT++ operators in finally are inputs; Field2D averaging is the identity on axisymmetric fields), src/snb_conduction.cxx transform and the conversion factors of outputVars |
| PreconModel | the preconditioners of evolve_pressure, evolve_energy and neutral_mixed, ComponentScheduler::precon, Hermes::precon (solvers are inputs) |
| VortModel | src/vorticity.cxx 440-482 (solve and outer guard cells) and all of finally, src/relax_potential.cxx finally without the Boussinesq approximation (operators and solvers are inputs) |
| PpmModel | XPPM and BOUTMIN of four, src/div_ops.cxx (not selected as the code stands) |
| InitModel | choice of the metric in Hermes::init; external sources, initial logarithms and floors in the constructors of evolve_density, evolve_pressure, evolve_energy and neutral_mixed |
| FloatModel | MinMod, MC, Div_par_mod, add and subtract once more, with a rounding after every operation |
| SystemModel | right-hand side of the densities on a line: reactions (the models of ReactionsModel), recycling (WallsModel), Field3D::setBoundaryTo, transport (ParallelModel) put together |
| AccessModel, AccessComponents, AccessInputs | the state tree, and the calls on it made by transform and finally of all registered component types, in the order of the code; option values which decide about them; the 64 BOUT.inp files (numbers computed by components are arbitrary) |
| ExchangeModel | transforms of Collisions, ThermalForce and reactions run one after the other on one state |
Not modelled:

* Time integration, Laplacian inversion, MPI itself, file I/O, JSON parsing.
* Floating point rounding (see above), except in FloatModel.
* `outputVars` metadata except unit conversion factors.
* Non-orthogonal/3D-metric branches of BOUT++ (`bout_have_3d metrics`), FCI grids.


## 4. Properties: what is modelled and how it is proved

For each property: the method, then what came out.  The file named holds the theorems.  Names ending in `_partial` or `_refuted` are explained by their comment there.

* **C01** *A quantity that has been read can no longer change in that evaluation* (proved; OptionsProps.v).  Method: entry model (value, two read marks) with all protocol calls as a transition function; invariant over arbitrary call lists (`fold`).  Result: Full protocol of component.hxx over an arbitrary key type; any history.
* **C02** *Domain-only reads stay valid inside the domain* (partial; OptionsProps.v).  Method: same model with values that are fields over boundary and interior cells; positive part: writes through set/add/subtract rejected; the full statement needs `setBoundary` to check interiors.  Result: Proved for writes other than setBoundary; refuted in general because setBoundary can replace the whole field after a no-boundary read.
* **C03** *Sources accumulate independently of component order* (proved; OptionsProps.v).  Method: induction over the list of contributions in a commutative group; permutation invariance.  Result: setBoundary and set on a fresh or unread entry; see C02/C04 for the exceptions.
* **C04** *A rejected call leaves the value alone, and presence tests stay true* (partial; OptionsProps.v).  Method: case analysis per call + induction over histories; a failing read still sets marks, looked at separately.  Result: No-boundary presence query: setBoundary can create a value afterwards (refuted).
* **C05** *All transforms run before all finallys, once each, in the configured order* (proved; SchedulerProps.v).  Method: trace model: components are arbitrary functions on the state emitting events; induction over the component list, including exceptions.  Result: Components' transforms are run in the order of the list, each on the state left by the one before, and every finally after all transforms, for every number of components.
* **C06** *The component list means what it says* (proved; SchedulerProps.v).  Method: executable string functions for split/trim; theorem for every string against a declarative specification of the token list; round trip for printed lists.  Result: Parsing of the components list and of the type lists: every section becomes components in the order written.
* **C07** *Evaluations do not leak state into each other* (proved; SchedulerProps.v).  Method: sequence of evaluations as a fold; the state given to the components is a fresh one each time, whatever the earlier ones did.  Result: Each evaluation starts from a state without the previous evaluation's values; proved for every sequence of evaluations.
* **C08** *State copies made by the `transform` component are well-formed and obey the read marks* (partial; TransformProps.v).  Method: parser model; copy semantics in the store.  Result: Accepted assignments copy right to left; assignments are applied in alphabetical, not listed, order (refuted), and several '=' signs are accepted in corner cases (refuted).
* **C09** *Collisions conserve momentum* (proved; CollisionsProps.v).  Method: monadic model of collide/transform; invariant: sum over species of momentum_source unchanged; induction over the pair loops.  Result: Whole transform over any number of species; finishing condition also proved.
* **C10** *Collisions conserve energy and heat flows from hot to cold* (proved; CollisionsProps.v).  Method: same, invariant: sum of (energy_source + velocity * momentum_source); sign lemmas per pair.  Result: Total energy includes v.momentum_source.
* **C11** *Collision frequencies satisfy momentum balance* (proved; CollisionsProps.v).  Method: same, per pair identity + exact pair enumeration.  Result: Electron beams and electron/negative-ion pairs are skipped by the code.
* **C12** *Collision switches are honoured* (partial; CollisionsProps.v).  Method: pair classification function vs. specification by species kind.  Result: ion_neutral is not consulted when the ion sorts before the neutral (refuted); zero-charge species counts as charged (refuted).
* **C13** *The thermal force conserves momentum* (proved; ThermalForceProps.v).  Method: monadic model; sum invariant.  Result: Whole transform over any number of species; the parallel gradients are arbitrary inputs. The force of each pair is also given explicitly.
* **C14** *Electron-impact reactions conserve particles and charge* (proved; ReactionsProps.v).  Method: pointwise model of electron_reaction on the store; sum invariants.  Result: Any species names and charges; the cell average is that of C60.
* **C15** *Electron-impact reactions conserve momentum and account for all energy* (partial; ReactionsProps.v).  Method: same; energy identity including (V1-V2)^2 term.  Result: Heavy-species momentum and total energy proved; electron energy proved to be heating*radiation_multiplier minus radiation, which refutes the documented meaning of the radiation multiplier when it is not 1.
* **C16** *OpenADAS reactions conserve particles, charge, momentum and energy* (partial; ReactionsProps.v).  Method: same for OpenADAS.  Result: Particles, charge, momentum and thermal energy proved. Total (thermal + kinetic) energy is refuted: the frictional heating is missing; the defect is given exactly.
* **C17** *Hydrogen charge exchange conserves particles, momentum and energy* (partial; ReactionsProps.v, Revisit4Props.v).  Method: same for CX; four species with possible aliasing.  Result: Proved for same and different isotopes including aliasing. The momentum option is refuted: it stops the ions, not the atoms, from gaining momentum.
* **C18** *OpenADAS charge exchange conserves particles, momentum and energy* (proved; ReactionsProps.v).  Method: same for ADAS CX.  Result: Charge imbalance is rate times the imbalance of the charges (no check in the code); kinetic energy defect given exactly.
* **C19** *Rate-table lookup never leaves the table* (proved; ReactionsProps.v).  Method: index search over list tables with an explicit out-of-bounds outcome; bilinear interpolation bounds.  Result: std::lower_bound is modelled by its result on a sorted vector.
* **C20** *AMJUEL rates are positive, and outside the fitted range they take the value at its edge* (partial; ReactionsProps.v).  Method: double polynomial as folds; refinement to the mathematical double sum; positivity by exp.  Result: Proved for square tables, which all tables of the code are; refuted for rectangular ones, whose loop bounds are exchanged.
* **C21** *Parallel advection conserves particles* (proved; ParallelProps.v).  Method: fold over cells with updates; telescoping sum by induction on the number of cells.  Result: Over real arithmetic, any limiter, any metric and any number of cells; grid lines along y at fixed x, z.
* **C22** *Parallel momentum advection conserves momentum* (proved; ParallelProps.v).  Method: same.  Result: As C21; the flow diagnostic of Div_par_fvv does not exist in the code.
* **C23** *Slope limiters do not create new extrema* (partial; LimitersProps.v, Revisit2Props.v).  Method: case analysis of limiters over R; Superbee modelled with an explicit uninitialised-read outcome.  Result: Superbee is refuted: in the operators it reads uninitialised values and in cellAverage it degenerates to first order; the documented formula is proved when its fields are initialised.
* **C24** *Parallel diffusion conserves and dissipates* (proved; DiffusionProps.v).  Method: fold over faces; summation by parts.  Result: Both parallel diffusion operators. Dissipation and conservation on closed and periodic lines.
* **C25** *Radial hyper-diffusion conserves and vanishes at closed boundaries* (partial; DiffusionProps.v, Revisit2Props.v).  Method: model of the loop incl. the boundary test; conservation.  Result: Proved on one processor in X; refuted across processors (the boundary test uses j == mesh->xstart and both edge rules apply on interior processor boundaries).
* **C26** *Results do not depend on how the field line is split between processors* (partial; ClosureProps.v, DiffusionProps.v, ParallelProps.v).  Method: operator on a window of the line vs. operator on the whole line, guards copied.  Result: Any list of processor sizes, at least two guard cells; with one guard cell the operators read outside the arrays.
* **C27** *ExB advection conserves* (partial; ExBProps.v).  Method: corner potentials; telescoping in X and cyclic telescoping in Z.  Result: Both X-Z operators: divergence of face fluxes in every cell, integral, closed boundary, any split between processors; poloidal X and Y parts in flux form. The flow is free of divergence for uniform J; for varying J the exact divergence is given and the claim refuted. Not modelled: staggered fields, conversions between field-aligned and orthogonal fields.
* **C28** *Perpendicular diffusion conserves* (partial; PerpProps.v, Revisit2Props.v).  Method: face-flux form, telescoping; checked term by term against the code's metric factors.  Result: Integrals for the central, upwind and limited operators for every transform that keeps sums over Z. Flow diagnostics exact below the top row; the flow through the top face is in no element of flow_ylow (refuted). Upwind and limited versions lack J g33 in Z (refuted). Limited version: direction of the field added (refuted). Axisymmetric metric only.
* **C29** *The numerical viscous heating diagnostic equals the kinetic energy dissipated* (partial; ParallelProps.v, Revisit2Props.v).  Method: pointwise energy identity.  Result: Exact balance with the excess term proved; equality with dissipation, sign, free-boundary balance and the diagnostic factor 3/0.2 refuted.
* **C30** *The detachment controller's output stays inside its limits* (partial; ControlProps.v).  Method: controller as a state machine, invariant over event lists.  Result: Every history of evaluations and restarts. Initial value and limits changed at a restart are not checked (refuted).
* **C31** *The detachment controller's history buffers are safe and in step* (partial; ControlProps.v).  Method: same; UB outcome for erase on an empty vector; invariant.  Result: Every history, sizes 1 to 2^31-1. Size 0 erases from an empty vector and negative sizes are unbounded (refuted).
* **C32** *The derivative estimate is the least-squares slope* (proved; ControlProps.v).  Method: least-squares algebra over lists.  Result: Lists of any length over the reals.
* **C33** *The detected detachment front lies on the field line* (partial; ControlProps.v).  Method: search loop over lists; interpolation bounds.  Result: Every profile, positive dy. No crossing gives the last cell centre rather than the target, and a fully detached plasma gives the target (refuted).
* **C34** *The PI controllers integrate the error once and never remove particles or energy when told not to* (partial; ControlProps.v).  Method: state machine over event lists; trapezoid sum specification.  Result: Every sequence. Back-and-forth evaluation inflates the integral; control_target_temperature on two processors uses an unset multiplier (refuted).
* **C35** *Restarting continues the controllers* (partial; ControlProps.v).  Method: save/restore functions; bisimulation.  Result: Detachment controller without derivative term and single PI controllers. Derivative buffers not saved; shared static flag restores only the first PI controller; first-step handling is switched off on fresh runs (refuted).
* **C36** *Sheath extrapolation never goes negative or grows* (partial; SheathProps.v).  Method: real case analysis.  Result: Range proved for SheathBoundary, SheathBoundaryInsulating and mode 0 of SheathBoundarySimple. Refuted for SheathBoundarySimple's default ExponentialFree (grows outwards) and LinearFree (negative).
* **C37** *The sheath carries no net current when the potential is computed by the sheath component* (partial; SheathProps.v).  Method: model of the boundary cell computation with lists of ions; exp/log identity.  Result: Simple sheath: any number of ions at both ends, provided the ion charge flux is positive and below electron saturation; refuted above saturation (supersonic ions). SheathBoundary: partial theorems (no gradients, or one singly charged ion with non-falling temperatures); refuted for sin_alpha<1 and for Te falling towards the sheath.
* **C38** *The insulating sheath draws no current* (partial; SheathProps.v).  Method: same.  Result: Momentum balance for any number of singly charged ions, velocity balance for one species of the electrons' density, ions at the sound speed; refuted for charge 2 and for two species.
* **C39** *Sheath heat fluxes cool the plasma with the stated transmission factor* (partial; Revisit4Props.v, SheathProps.v).  Method: algebraic identity and sign analysis.  Result: Total heat flux gamma n T v proved for simple sheath electrons and ions, SheathBoundary electrons (unless clamped) and insulating electrons at the lower end; SheathBoundary never heats. Refuted: simple sheath can heat; insulating electrons at the upper end use the wrong velocity.
* **C40** *Upper and lower sheath treat mirrored plasmas equally* (partial; SheathProps.v).  Method: lower and upper block modelled separately, equality under the mirror map.  Result: Proved for simple and full sheaths; refuted for the insulating one (electron energy, ion speed in thin plasma).
* **C41** *No-flow boundaries pass nothing* (partial; WallsProps.v).  Method: composition of the boundary model with the advection operator model.  Result: Zero flux and zero gradient at enabled ends, conservation of the line for every limiter, proved when the boundary flux is fixed; with fix_momentum_boundary_flux at its default false momentum leaks (refuted).
* **C42** *Neutral wall boundaries lose no particles and account for the wall heat* (proved; Revisit1Props.v, WallsProps.v).  Method: algebra and sign analysis.  Result: Energy balance of lines with either end enabled, radial walls, wall area, sign of the heat. The guard cells of radial walls are taken as given.
* **C43** *Recycling returns at most what arrives* (partial; Revisit1Props.v, WallsProps.v).  Method: per-face identity, sums over faces, composition with the advection model.  Result: Targets for any list of channels, radial walls and pump per channel. Balance with the ions lost needs dx, dz constant along the line (refuted otherwise); a perfect pump returns energy (refuted).
* **C44** *Recycling settings apply to the species they were given for* (partial; WallsProps.v).  Method: constructor as a fold over species that overwrites members.  Result: Multipliers and energies are per species; switches are members overwritten by each species (refuted), and the radial flow members are stale for a species without its own flow (refuted).
* **C45** *Temperature, pressure and density passed on are consistent and non-negative* (partial; EvolveProps.v).  Method: pointwise floors; case analysis.  Result: Floors of density, pressure, temperature, momentum for every evolved real value, and the sign of the relaxation term; refuted for EvolveEnergy with neumann_boundary_average_z, where the floor precedes the boundary condition.
* **C46** *Heat flux limiters bound the flux* (partial; EvolveProps.v, Revisit4Props.v).  Method: real inequality.  Result: Bound, sign, harmonic mean and collisional limit of the limited heat flux and viscous stress at a cell centre; refuted for the flux through faces, for cold plasma (1e-10 floor) and for the viscosity at zero pressure (0/0).
* **C47** *Energy and pressure describe the same plasma* (partial; EvolveProps.v).  Method: round trip algebra.  Result: Round trip both ways, guard cell energy, work terms at a point and integrated over a closed line for both forms; sources agree iff A V^2 Sn = 0, so refuted with a particle source.
* **C48** *Quasineutrality* (proved; ClosureProps.v).  Method: sum over species list.  Result: Any list of species with distinct names; charge neutrality iff the density needed is non-negative.
* **C49** *Zero current* (proved; ClosureProps.v).  Method: sum over species list.  Result: Any list of species; current zero at or above the density floor, never increased below; when it throws.
* **C50** *Electron force balance transfers the full electron pressure force to the ions* (proved; ClosureProps.v).  Method: sum over species list.  Result: Any list of species; Grad_par(Pe) is an arbitrary input.
* **C51** *Fixed-fraction impurities* (partial; ClosureProps.v).  Method: string parser model and store update.  Result: strsplit and trim of BOUT++ are modelled (not in the repository), stringToReal is an arbitrary function; refuted: a second '@' at the end is accepted; a species listed twice.
* **C52** *Sound speed and fastest wave* (partial; ClosureProps.v, Revisit1Props.v).  Method: sum over species list; sqrt monotonicity.  Result: Refuted with the default fastest_wave_factor of 0; holds for a factor of at least one inside the domain.
* **C53** *Classical diffusion is ambipolar* (partial; ClosureProps.v, Revisit1Props.v).  Method: arbitrary linear diffusion operator; sum over species.  Result: For every linear operator in place of FV::Div_a_Grad_perp (BOUT++). Refuted: custom_D = 0 calculates D without conduction.
* **C54** *Normalising the metric keeps it a metric* (proved; MetricProps.v).  Method: 3x3 matrix algebra by `field`.  Result: All components at one arbitrary point, every positive rho_s0 and Bnorm; coord->geometry() (Christoffel symbols, in BOUT++) is not modelled.
* **C55** *The recalculated metric is a consistent field-aligned metric* (proved; MetricProps.v).  Method: 3x3 matrix algebra by `field`; comparison with C54's map.  Result: Every point and whole grids for the sign of Bp; the volume is positive exactly if dx*Bp > 0.
* **C56** *Fixed-fraction radiation only cools* (partial; RadiationProps.v, Revisit3Props.v).  Method: curve definitions; sign analysis.  Result: Every registered curve at every temperature, every fraction and normalisation; refuted: with the cell average a cell whose density is negative may still radiate because its face value is positive.
* **C57** *Timestep scaling only slows down* (proved; ClosureProps.v, Revisit1Props.v).  Method: maximum over a list; induction.  Result: Any number of cells; the maximum is over all cells of all processors.
* **C58** *Potential boundary relaxation is well behaved for any step size* (partial; FieldsProps.v).  Method: exp laws; convexity.  Result: Each update is the exact solution of the relaxation; any sequence of steps depends only on elapsed time while the mean stays; bounded for any times and solutions; the solver is given the face value. Refuted: the core average divides by LocalNy (guard cells included); the old value is read at z=0 only, so for a boundary varying in z the new value need not lie between.
* **C59** *Boundary conditions set the face value they promise* (partial; MetricProps.v).  Method: function update model.  Result: Values, sign and unchanged domain for every field, grid and length; refuted: the decay stops at the first guard cell, grows for negative dx, and uses the radial cell size at Y boundaries.
* **C60** *Averages over a cell are exact for linear data* (partial; LimitersProps.v).  Method: algebra.  Result: Weights sum to one only if Jm + Jp = 2 J; refuted otherwise.
* **C61** *Neutral diffusion wall and limiter settings keep fluxes bounded* (partial; NeutralProps.v, Revisit4Props.v).  Method: real case analysis.  Result: Limits on the diffusion coefficient, wall density, no diffusion through walls (along, across and radially), particle, momentum and heat balance of a line between walls, viscous energy pointwise and its sign, empty cells. Refuted: guard density can be negative; mass enters viscosity twice; holding ddt at zero below the floor creates particles. BOUT++ Div_par, Grad_par enter as arbitrary operators.
* **C62** *Electromagnetic momentum correction is consistent* (partial; FieldsProps.v).  Method: sum/case analysis over species list.  Result: NV = A max(N,1e-5) V preserved, neutrals unchanged, Ampere's law with corrected momenta above the density floor; below the floor it is refuted. The Laplacian solver is part of BOUT++ and enters as its equation.
* **C63** *Viscosity conserves energy* (partial; EvolveProps.v, Revisit4Props.v).  Method: algebra; limiter bounds.  Result: Parallel ion viscosity on a line with stress-free ends (the operator is modelled by Hermes' own Div_par_K_Grad_par_mod, BOUT++'s not being in the repository); refuted: electron viscosity, perpendicular part pointwise, total stress, boundary with one guard cell, integer 1/3.
* **C64** *Diagnosed flows and units are right* (partial; Revisit4Props.v, UnitsProps.v).  Method: algebra on normalisations; C++ integer division modelled with Z.  Result: Tables of all conversion attributes written by the components checked against dimensions for every positive normalisation; refuted for three entries, the integer quotients 5/2 and 3/2 in neutral_mixed, and a momentum flow name.
* **C65** *Simple pumps and closures only remove what they should* (partial; ClosureProps.v, Revisit1Props.v).  Method: sign analysis and sums.  Result: Pump and sheath closure; refuted: the closure's sinks remove neutrals.
* **C66** *Index-space perpendicular and Z diffusion conserve* (partial; DiffusionProps.v).  Method: face-flux form and telescoping of Div_Perp_Lap_FV_Index; witnesses for the ignored xflux and the factor 2.  Result: Conservation proved; xflux is ignored and X is twice as strong as Z (refuted).
* **C67** *The X-Y Laplacian is in flux form* (proved; DiffusionProps.v).  Method: face-flux form of Laplace_FV on a plane of cells, telescoping in X and Y.  Result: dx constant along y and dy constant along x.
* **C68** *Transport never takes particles from an empty cell* (partial; ExBProps.v, PerpProps.v).  Method: sign of each face flux out of a cell whose value is zero, for every operator that advects or diffuses.  Result: X-Z ExB and radial limited diffusion proved (parallel advection: C21_empty_cell_not_drained); refuted for the poloidal ExB part even with positive set, and for the limited diffusion in Y.
* **C69** *Recycled neutrals carry between zero and the ions' energy* (partial; WallsProps.v).  Method: sign analysis of the recycled energy per channel, sum over channels.  Result: Bounds hold for plasma flowing out with at least the re-emission energy; inflowing plasma gives negative neutral energy (refuted).
* **C70** *Diffusion at low density acts only at low density* (proved; EvolveProps.v).  Method: real inequality for the low-density diffusion coefficient.  Result: Coefficient of the diffusion at low density.
* **C71** *Cooling curves join up at the ends of their fits* (partial; RadiationProps.v).  Method: certified bounds of exp, ln and polynomials at the ends of each fitted range, by rational arithmetic inside Coq.  Result: Kernel-checked numerical bounds at both ends of each fit (NumericProofs, RadiationFits). 12 of 14 ends agree; refuted: xenon at 1300 eV falls below 1e-43, tungsten at 1500 eV below 1e-198, while the constants used just above are about 1e-31 (coefficients printed with too few digits for the degree); the simplified argon curves jump at 0.52 eV.
* **C72** *Legacy ionisation and SOL-KiT charge exchange conserve* (partial; RadiationProps.v, Revisit3Props.v).  Method: pointwise model on the store; sums over species; witnesses for the kinetic energy.  Result: All balances at every state; refuted: both components lose kinetic energy which heats nothing. The rate for te <= 0 (log of a non-positive number) is not meaningful in the code.
* **C73** *Potential set from the temperature gives zero sheath current* (partial; FieldsProps.v).  Method: exp/log identity.  Result: Holds for hydrogen with Ti = Te and only where Te + Ti = 2 A Te; refuted for deuterium, which the comments name. Face value proved for any Te.
* **C74** *Vector potential boundary relaxation depends on elapsed time only* (partial; FieldsProps.v).  Method: exp laws along a list of times; witness with a step back in time.  Result: Between and elapsed-time law for non-decreasing times; refuted when a trial step is evaluated at an earlier time and repeated (last_time moves back).
* **C75** *Neutral time derivatives do not depend on earlier evaluations* (partial; NeutralProps.v).  Method: two runs of the model with different guard values compared; congruence of every operator.  Result: Proved for lines with walls (any mesh split); refuted where an end of the domain has sheath_ydown/sheath_yup = false.
* **C76** *Diamagnetic drift of the species* (partial; DriftProps.v).  Method: transform on the store with the operators as linear arguments; sum over species.  Result: Operators (FV::Div_f_v, Grad) are arguments assumed linear. Selection, isothermal transport and the current of the gradient form are proved; the drift velocity at the sheath face is zero iff guard cell and last cell have the same temperature (refuted in general: T falls towards the sheath).
* **C77** *Polarisation drift keeps the plasma neutral* (partial; DriftProps.v).  Method: sum over charged species of the polarisation flux with a bilinear operator; the Laplacian solve enters as its equation; concrete line operator and solver as witness.  Result: Proved without the Boussinesq approximation for mass densities above the floor, assuming FV::Div_a_Grad_perp is linear in its coefficient and the Laplacian inverts it. With the (default) Boussinesq approximation the current is scaled by real over assumed mass density: refuted by deuterium at half the reference density. Switching off only boussinesq always throws because diamagnetic_polarisation defaults to true.
* **C78** *Energy exchange with the diamagnetic current balances* (partial; DriftProps.v).  Method: summation by parts on a periodic line of cells.  Result: Proved for one coordinate direction with second order central differences (BOUT++'s DDX and Div as used there). Refuted: at a wall the vorticity equation keeps a diamagnetic current which the drift of the species (diamagnetic_drift.cxx) sets to zero, since Vorticity does not change the curvature in the guard cell.
* **C79** *Relaxing potential agrees with the potential solver* (partial; DriftProps.v).  Method: algebra of the relaxation; linearity over species.  Result: Proved if every charged species with pressure has charge 1 (electrons must not have pressure); refuted with electrons, whose pressure enters with the wrong sign because the charge is left out. The defaults 1 and 10 contradict 'lambda_1 > lambda_2 > 1'; the energy from the polarisation current is 3/2 of that of PolarisationDrift and is also given to species of charge 0.
* **C80** *Friction and damping of vorticity* (partial; DriftProps.v).  Method: sums over species list; case analysis of the damping.  Result: Proved; without charged particles (or with zero density) the mean is 0/0 (refuted).
* **C81** *Anomalous diffusion moves particles, momentum and energy consistently* (partial; TransportProps.v).  Method: the operator applied to axisymmetric fields reduced to radial and poloidal face fluxes (z fluxes cancel), telescoping over the box, sign analysis of upwinded fluxes; computed witnesses on a 2x3x4 box.  Result: Totals, uniform temperature and velocity, and independence of z are proved. No new maximum of T is proved for orthogonal grids (partial) and refuted for field-aligned grids, where Y fluxes carry the mean of T on both sides; energy is refuted: viscous work does not become heat.
* **C82** *Parallel diffusion of neutrals goes down the pressure gradient and conserves* (partial; TransportProps.v).  Method: face fluxes on a line; monotonicity of log(floor(P)); zero-gradient guard cells make the end fluxes vanish; scaling laws of the operator; two-cell witnesses.  Result: Direction of flow, conservation of particles, isobaric, isothermal and uniform flow cases and the energy balance are proved for all inputs. The viscosity is right for mass 1 only (partial/refuted), there is no viscous heating (refuted), and thermal_conduction=false is ignored because the option name is misspelt (refuted).
* **C83** *SOL-KiT neutral diffusion has the right coefficient* (proved; TransportProps.v).  Method: fold over species equals an independent sum; square-root algebra; permutation induction.  Result: Proved for all species lists and normalisations.
* **C84** *Simple conduction is Braginskii's and goes from hot to cold* (partial; TransportProps.v).  Method: power and square-root algebra against an SI formula; certified bounds of ln for the sign of the Coulomb logarithm.  Result: Coefficient proved equal to Braginskii's for all inputs. Heat flows from hot to cold above 1 eV and below 1e25 m^-3 (partial); below 0.01 eV at 1e20 m^-3 it flows from cold to hot because the Coulomb logarithm is negative (refuted).
* **C85** *The stellarator two point model conserves and is as documented* (partial; TransportProps.v).  Method: telescoping sums, scaling law of the operator; two-cell witnesses.  Result: Conservation holds for constant pitch (partial; a pitch-weighted integral is conserved in general) and is refuted for varying pitch. The code has D/Theta^2 and, for momentum, AA nu where D/Theta and nu are documented (refuted), and diffuses particles without their energy (refuted).
* **C86** *Prescribed density, temperature and velocity give a consistent species* (partial; SimpleProps.v).  Method: symbolic execution of the state calls; the marks are invariants.  Result: Proved at one grid point for the five components; the copy of a temperature by set_temperature does not follow later boundary conditions (C86_stays_equal_refuted).
* **C87** *Registered reactions do what their names say* (proved; RegistryProps.v).  Method: certified computation over the finite registry, lifted to all states by the effect lemmas of the reactions.  Result: Proved for the registration tables as transcribed from the headers and the axes and shapes of the shipped json files; the coefficients in those files are arbitrary.
* **C88** *Collision frequencies follow the Coulomb formula and the NRL logarithm* (partial; CollisionRatesProps.v).  Method: algebra of powers and logarithms; certified bounds of exp for the constants.  Result: Refuted: continuity at 0.1 eV (constant logarithm 10 below), and that the logarithm exists between ions of opposite charge. The NRL logarithms are met within the rounding of the constants (0.01 for electrons, 0.1 for ions), which is part of the statements.
* **C89** *The controllers are PI and PID controllers* (partial; PidProps.v).  Method: induction over the history of samples, with the list of samples used as the invariant.  Result: Refuted: a crossing by way of an error of exactly zero is counted. The two forms of the controller differ by the rectangle against the trapezium rule, as stated. Histories of a fresh run without restart file; restarts are in C35.
* **C90** *The equations of density, momentum, pressure and energy fit together* (partial; EquationsProps.v).  Method: derivatives of products; telescoping sums over the line.  Result: Refuted: EvolveEnergy leaves out the work of the parallel electric field which EvolveMomentum applies. The values of the operators are derivatives of smooth profiles at the point (no discretisation error), without ExB drift; the closed line uses the discrete operators.
* **C91** *Rate coefficients of hydrogen behave as their physics demands* (proved; RatesProps.v).  Method: certified positivity of polynomials in two variables (Bernstein form, bisection, integer arithmetic evaluated by the kernel), mean value theorem.  Result: All statements hold for all real temperatures and densities (clipped as in the code); positivity of polynomials is decided by a checker proved correct in PolyCheck.v.
* **C92** *Rate coefficients of helium, charge exchange and the legacy ionisation behave as their physics demands* (partial; RatesProps.v).  Method: certified positivity of polynomials in two variables (Bernstein form, bisection, integer arithmetic evaluated by the kernel), mean value theorem.  Result: Refuted in cold gas: helium ionisation (energy below the potential at 0.1 eV), helium recombination (collapses at 0.1 eV), charge exchange (rises below 0.06 eV) and the legacy ionisation rate (10^8 times the AMJUEL one at 0.1 eV). The partial theorems give the ranges in which the statements hold.
* **C93** *Neutral gas with full velocity: coordinates, boundaries, energy and sources* (partial; FullVelProps.v).  Method: two by two linear algebra over reals, square roots, update algebra over cells.  Result: Refuted parts: the transformation depends on the division among processors (one-sided differences at each processor's ends) and is unset in guard cells between processors; the temperature in an outflow guard cell is that of before the boundary; the published pressure is not density times temperature below a floor; the target loss uses sqrt(T) whatever the mass; momentum of lost particles is counted twice. BOUT++ operators are arbitrary inputs.
* **C94** *SNB heat conduction keeps the mesh and conserves units* (partial; FullVelProps.v).  Method: algebra over reals, the heat flux an arbitrary function.  Result: Refuted part: dy stays multiplied by rho_s0 if divHeatFlux throws. The heat flux itself belongs to BOUT++ and is an arbitrary function.
* **C95** *Preconditioners are implicit steps of the diffusion they stand for* (partial; PreconProps.v).  Method: maximum principle of the implicit equation on a line, uniqueness of its solution, witnesses for each disagreement.  Result: Refuted parts: with varying density or scaling the pressure preconditioner is not an implicit step of conduction; with evolve_log it acts on a time derivative nobody reads; that of evolve_energy acts on ddt(P), not on the evolving energy, and its coefficient lacks 2/3; neutral pressure diffuses with 5/3 Dnn but is preconditioned with Dnn. The solvers belong to BOUT++ and enter as arbitrary functions or through the equation they solve.
* **C96** *Vorticity equation: potential, advection, currents and dissipation* (partial; VortProps.v).  Method: operators as (linear) arguments; update algebra of loops; sums over species and permutations; integral functionals which vanish on divergences.  Result: Refuted parts: with one cell between two targets the upper sheath term overwrites the lower; the sheath term adds energy where the potential changes sign between the last cell and the target; the charge is missing in the ion pressure term of relax_potential. Operators of BOUT++ are arbitrary or linear arguments.
* **C97** *The parabolic interpolation makes no new extrema where the data are monotone* (partial; PpmProps.v).  Method: case analysis on the orderings, polynomial identities for the cell averages of a cubic.  Result: Refuted parts: the threshold 1e-10 for second derivatives is an absolute number, so at extrema the result depends on the units; data which are nowhere negative may get a negative face value. XPPM is not selected as the code stands.
* **C98** *Sources, initial values and the metric are what the input asks for* (partial; InitProps.v).  Method: loop invariants for the nested loops, unit algebra, all cases of present and absent settings.  Result: Refuted parts: evolve_energy ignores source_time_dependent although the manual promises it for any source; neutral_mixed ignores it and source_only_in_core as well; the manual names the field in the grid file S<name>_src while N<name>_src is read; with evolve_log and no profile the logarithm starts at minus infinity. Expressions of the input file are taken as evaluated.
* **C99** *Limiters, transport and sources in double precision* (partial; FloatProps.v).  Method: abstract laws of rounding (monotone, idempotent, odd, relative error of sums), instantiated by Flocq for binary64; loop invariant; concrete doubles with ties.  Result: Refuted parts, each by concrete doubles: a face value of MC may lie below both neighbouring cells; transport may take from an empty cell if the wave speed equals the flow speed; three sources added in another order give another result. Not covered: overflow, signed zero, fused multiply-add.
* **C100** *Nuclei on a whole field line* (partial; SystemProps.v).  Method: induction over the list of reactions with a weight kept by each reaction equation; telescoping transport; sums over channels and species exchanged.  Result: Refuted part: ions flowing in through a target are not taken from the neutrals (recycling sees only outflow), so nuclei come out of the wall; and dx varying at the end (C43). setBoundaryTo is BOUT++'s, modelled from its documented behaviour (half-way value).
* **C101** *Momentum and energy with collisions, thermal force and reactions together* (partial; ExchangeProps.v).  Method: induction over the list of components with what each leaves unchanged; concrete runs.  Result: Refuted parts: the thermal force does work on the relative velocity which no energy source balances; EvolveEnergy adds S_E + V S_NV but not - A V^2/2 S_N, so that ionisation of slow atoms among fast ions makes energy. OpenADAS leaves out the heating by velocity differences (C16, C18).
* **C102** *Shipped inputs construct and evaluate* (partial; AccessProps.v).  Modelled: the access calls of every registered component (AccessComponents.v), the state tree (AccessModel.v) and all 64 input files of /repo (AccessInputs.v).  Method: the run over arbitrary fields is mapped onto the run over a one-point type, which is computed with time and units left open.  Result: all inputs evaluate; refuted: in one input a set value is silently replaced, in two a profile is overlooked by an earlier boundary condition.
* **C103** *What a component reads has been provided* (partial; AccessProps.v).  Method: invariant over programs (every event agrees with the writes before it); syntactic tables of writes and needs, proved for every registered type by going through its program; induction over the list.  Result: refuted: electromagnetic throws if any species has no charge.
* **C104** *Order of components* (partial; AccessProps.v).  Method: read marks persist through any program without `transform` copies; programs which only read leave the values alone, so that finally calls are independent of each other; calls on different entries, and reads of the same entry, commute, hence programs do, hence lists reordered by exchanging neighbours of different species give the same states.  Result: refuted: transform replaces entries read as final; quasineutral listed before the ions omits them silently.
* **C105** *Interface of component types* (partial; AccessReadProps.v).  Tables of looks, permanent looks and permanent changes per type (AccessReadSpec.v), written from the sources.  Method: every call of a program is within the table; every path through a program to its end makes the listed calls; with the theorem about writes after marks (C104) this excludes orders.
* **C106** *No species is left out*.  AccessActsSpec.v lists, per type, conditions on the state at the start of a call (entries set, entries not set, the value of a charge, species present) and the read or change which must then be in the record of the call.  Species and charge are variables of the table.  AccessActs.v: a program predicate `does`, in which answers to calls are restricted to those which the conditions allow; conditions survive every call except copies and writes to the scalars concerned.  Rules for loops need the species to be in the list of children, which holds because sections are never removed.  The tables are checked by a tactic following the program (AccessActsPlasma.v, AccessActsWalls.v), then `C106_nothing_left_out`; `C106_sources` is the case of the sources of the evolved equations.  Partial: acts on pairs of species, recycling and reactions are not in the table (reactions are in C105_always).
* **C107** *Optional entries are asked for before they are read*.  AccessAskedSpec.v lists groups of optional entries per type and method (own species, any species, fields, top).  AccessAsked.v: a program predicate `guarded` which carries the entries seen to be set along each path, forgetting what was seen inside a step when the step is over (its boolean answer is kept); a record of a guarded program has an event showing the entry before each read of an optional one (`C107_asked_before_read`).  Partial: entries which a type reads without asking in some branch are not in the table, nor are reactions.  Edits seeded against this theorem made `asked_tac` loop until the time limit instead of failing with an error; they are recorded as inconclusive.
* **C108** *Omitted options*.  AccessDefaultsSpec.v lists section, key and default of the optional settings per type, and the settings which are required.  AccessDefaults.v: reading the options with one setting added (`obool_with` and the like), then each constructor with the reads rewritten (`C108_defaults`); a required setting which is missing stops the constructor (`C108_required`).

## 5. Disagreements between the properties and the code

Each is a theorem `..._refuted` with a concrete witness in the model.

* `C02_domain_read_stable_refuted`: The full statement of C02 fails: [setBoundary] replaces the whole field and is accepted after a domain-only read, so a later reader can see different interior values.
* `C04_presence_noboundary_refuted`: A negative IS_SET_NOBOUNDARY answer can become wrong: a later [setBoundary] on the unset entry is accepted.
* `C08_one_equals_sign_refuted`: "Accepted exactly when there is one '='" is false in both directions (given the getline-like splitting of BOUT++).
* `C08_listed_order_refuted`: Without that condition the listed order is not followed: `b = a, a = c` first overwrites a (keys are visited in alphabetical order), so b becomes c.
* `C08_copy_respects_read_marks_refuted`: The copy made by `transform` bypasses the read marks: a value may change after it has been read.
* `C12_ion_neutral_switch_refuted`: The ion-neutral switch is ignored when the ion's name sorts first.
* `C12_neutral_neutral_switch_refuted`: A neutral whose charge entry is set to zero is taken for an ion.
* `C15_potential_energy_refuted`: The electrons should get the potential energy of each recombination, less the radiation, which radiation_multiplier scales. The code scales the potential energy too.
* `C16_energy_refuted`: OpenADAS reactions lose the kinetic energy of the relative motion: the frictional heating is missing.
* `C17_option_refuted`: With no_neutral_cx_mom_gain "ion momentum in CX is still lost but not given to the neutrals" (include/hydrogen_charge_exchange.hxx 131-133), so the product atoms should not gain momentum; they do, and instead the product ions do not get the momentum of the atoms.
* `C20_rectangular_refuted`: The loop bounds are exchanged: a table of [rows] temperatures by fewer [cols] densities, as the type of the argument allows, is read outside a row.
* `C23_superbee_refuted`: ... but the operators leave them uninitialised, and the cell average sets them to 0.
* `C23_superbee_average_refuted`: In `cellAverage` Superbee degenerates to first order (its neighbours are zero).
* `C25_hyperdiffusion_conserves_refuted`: Refuted for more than one processor: two processors with one cell each, guard cells filled from the neighbour (the profile is 1 in the left cell, 0 in the right one): what the left cell gains the right cell does not lose.
* `C25_independent_of_y_index_refuted`: Refuted: the result of a radial operator does not depend on the y index (the code tests [j == mesh->xstart] where it means i).
* `C25_boundary_third_derivative_refuted`: The flux of hyperdiffusion through a boundary (bndry_flux = true) has the wrong sign: for the cubic x^3, with its exact value at the face, the formulas at 668-671 and 700-703 give -6 where the third derivative is 6 (as the fluxes between cells do).
* `C26_sound_speed_across_processors_refuted`: On two processors the guard cells hold no wave speed, the processors use different speeds at the face they share, and a line without flow loses particles; on one it does not.
* `C27_divergence_free_refuted`: With J varying radially it is not free of divergence.
* `C28_top_flow_diagnostic_refuted`: In the top row the statement is false: flow_ylow is set for ystart .. yend only, so the flow through the upper face of yend is in no element of it (while flow_xlow has the upper face of xend).
* `C28_versions_agree_refuted`: ... but not otherwise: the Z fluxes of the upwind and limited versions have no factor J g33.
* `C28_limit_direction_refuted`: The limited version adds a field-aligned result when g has no parallel slices.
* `C29_heating_equals_dissipation_refuted`: Refuted: the heating is not the kinetic energy dissipated. Two cells moving towards each other: nothing leaves through the ends, yet energy is created.
* `C29_heating_nonnegative_MC_refuted`: ... refuted for MC, the limiter that the pressure equation always uses ...
* `C29_heating_nonnegative_at_ends_refuted`: ... and at the ends of the line with the free boundary.
* `C29_free_boundary_balance_refuted`: Refuted: with fix_momentum_boundary_flux = false the heating corrects for another momentum flux than Div_par_fvv applies: the balance fails with a single cell (no interior faces).
* `C29_diagnostic_refuted`: Refuted: the diagnostic written for the heating is not the energy source (3/2 of the pressure source) but 15 times the pressure source.
* `C30_initial_value_refuted`: The initial value of the option is applied without a check (until the settling time is over and the error has changed).
* `C30_changed_limits_refuted`: New limits in the settings of a restart are not applied to the control signal restored.
* `C31_size_zero_refuted`: A size of zero: the first update erases an element of an empty vector.
* `C31_negative_size_refuted`: A negative size is a very large one.
* `C33_no_crossing_refuted`: Without a crossing the comment (src/detachment_controller.cxx 42-43) says the front is at the target; it is half a cell away.
* `C33_fully_detached_refuted`: A plasma with more neutrals than electrons everywhere, by the same amount in the guard cell: front at the target, not upstream.
* `C34_back_and_forth_refuted`: Back and forth in time: an error of 1 from time 0 to 1, with one step back, integrates to 3/2.
* `C34_target_temperature_refuted`: With control_target_temperature the root is the last processor, but the calculation is still on the first: with two processors the source multiplier used by all is never set.
* `C35_derivative_refuted`: With one, the buffers are needed, and are not saved.
* `C35_fresh_run_refuted`: The call of restartVars on a run that is not a restart: the first update is no longer treated as the first.
* `C35_two_pi_controllers_refuted`: ... and of two controllers only that of the first.
* `C36_exponential_mode_grows_refuted`: The default mode of SheathBoundarySimple does grow outwards.
* `C36_linear_mode_negative_refuted`: while the linear one can be.
* `C37_simple_sheath_supersonic_ions_refuted`: Faster ions: the potential is held at that of the wall, and a current flows.
* `C37_full_sheath_glancing_refuted`: At a glancing angle only the electrons are reduced by sin_alpha.
* `C37_full_sheath_falling_temperature_refuted`: An electron temperature that falls towards the sheath: the potential is calculated with the temperature in the last cell, the electron flow with that in the face.
* `C38_insulating_double_charge_refuted`: Doubly charged ions: the electron momentum is too small by the charge, and the velocity too large by it.
* `C38_insulating_two_species_refuted`: Two species: the electron velocity is the sum of the ions' velocities, not their mean.
* `C39_simple_sheath_heats_refuted`: With electrons hotter than ions the default transmission coefficient is less than the convected energy: the cell is heated.
* `C39_insulating_electron_heat_upper_refuted`: At the upper end the velocity further inside is used in place of that in the face: electrons at rest in both cells lose nothing, with the ions leaving at unit speed.
* `C40_insulating_sheath_refuted`: The insulating sheath: different electron energies, for any velocity further inside that is not that in the guard cell; and different ion speeds in a thin plasma.
* `C40_insulating_ion_speed_refuted`: In a thin plasma the ion speeds of the lower and the upper insulating sheath differ.
* `C41_momentum_by_default_refuted`: The default of fix_momentum_boundary_flux is false (src/evolve_momentum.cxx 58-60), and then momentum is lost.
* `C43_dx_varying_refuted`: If dx differs between the cell and the guard cell the two disagree: the recycling uses the mean, the transport that of the cell.
* `C43_pump_energy_refuted`: The energy of the ions, however, is returned with the multiplier of the wall even at a pump: a perfect pump (albedo 0) heats the neutrals.
* `C44_own_switches_refuted`: The flags of the last species are used for all.
* `C44_flags_unset_refuted`: With no species listed the flags are never set.
* `C44_own_flow_refuted`: A species without a radial particle flow recycles the flow of the species before it.
* `C45_energy_with_average_refuted`: ... but the boundary condition with the Z average comes after the floor, and makes the pressure and temperature handed on negative in the radial guard cells. (EvolvePressure floors after it: C45_pressure holds for the guard cells as well.)
* `C46_cold_plasma_refuted`: Free streaming itself is exceeded in a cold plasma, because of the 1e-10; ...
* `C46_flux_through_faces_refuted`: ... and by the flux through a face between cells, since the limiter sees the gradient at the centre of the cells: a temperature that alternates from cell to cell is not limited.
* `C46_vanished_pressure_refuted`: Where the pressure has fallen to zero - which EvolvePressure hands on for any P <= 0 - the limiter divides zero by zero.
* `C47_particle_source_refuted`: So not for a flowing plasma with a source of particles.
* `C51_one_at_sign_refuted`: So an entry with two '@' is accepted.
* `C51_listed_twice_refuted`: Listed twice, only the last counts.
* `C52_default_options_refuted`: `fastest_wave_factor` has the default 0 (include/sound_speed.hxx 36-38): with the default options `fastest_wave` is zero, below the sound speed.
* `C53_conduction_refuted`: Diffusion calculated from collisions comes with heat conduction - except for custom_D = 0.
* `C53_conduction_at_zero_refuted`: With custom_D = 0 the coefficient is calculated from collisions but no heat is conducted.
* `C56_unphysical_cell_refuted`: A cell with a negative density can still radiate: its face value is positive.
* `C58_core_average_refuted`: So it is not the average: a constant potential 1 on one processor with 4 cells and 2 guard cells at each end relaxes towards 1/2.
* `C58_between_refuted`: The old value is read at z = 0 only: if the boundary varies in z (a restart with another boundary condition), the new value at another z need not lie between the old value there and the mean.
* `C59_decay_continues_refuted`: The decay does not continue beyond the first guard cell.
* `C59_decay_negative_dx_refuted`: With negative dx (poloidal field in the other direction) values grow instead.
* `C59_decay_in_y_refuted`: At Y boundaries the distance is still the radial size of the cells, not the distance along the field.
* `C60_constants_refuted`: The weights of the cell average do not sum to one unless J(j-1) + J(j+1) = 2 J(j): the average of a constant is not the constant.
* `C61_wall_guard_refuted`: The density handed to other components in the guard cell can be negative, although the cells are not.
* `C61_viscosity_mass_refuted`: The viscosity eta_n = (2/5) m kappa_n already contains the mass, and is multiplied by it again: the force is not the divergence of eta grad V.
* `C61_hold_conserves_refuted`: But this creates particles: an empty hot cell next to a dense cold one. The flux between them conserves, the held rates do not.
* `C62_ampere_refuted`: Below the floor it does not.
* `C63_electron_viscosity_refuted`: Electron viscosity takes energy from the flow and gives no heat.
* `C63_perpendicular_pointwise_refuted`: Perpendicular ion viscosity: heat and work do not balance at a point (the heat uses the averaged velocity).
* `C63_total_stress_refuted`: Parallel plus perpendicular stress can be twice the pressure although each is limited to it.
* `C63_stress_boundary_refuted`: The boundary of the stress is written at index 1 (hard-coded), which is not the guard cell next to the domain with other numbers of guard cells.
* `C63_exb_transfer_refuted`: `(1 / 3)` at `ion_viscosity.cxx` 234 is an integer division, so the term is zero.
* `C64_conversion_factors_refuted`: The three which are not: the conductivity of evolve_energy lacks / Tnorm, the numerical viscous heating of evolve_pressure is per volume but declared in W, the particle source of neutral_parallel_diffusion is per volume but declared in s^-1.
* `C64_energy_flow_factors_refuted`: Energy flow diagnostics of neutral_mixed do not carry the factors 5/2 and 3/2: the quotients are of ints.
* `C64_momentum_flow_saved_refuted`: A momentum flow in Y which other components have set is not saved by evolve_momentum: it looks for another name.
* `C65_neutrals_lost_refuted`: But the sheath sinks also take the neutrals, which have no sheath.
* `C66_closed_radial_boundary_refuted`: The parameter xflux is ignored: flux enters through the radial boundary whatever its value.
* `C66_isotropic_refuted`: Refuted: equal diffusion in X and Z in index space; X is twice as strong.
* `C68_exb_poloidal_refuted`: The poloidal part takes particles from an empty cell, even with positive set.
* `C68_limited_diffusion_poloidally_refuted`: The limited diffusion in Y can take particles out of an empty cell.
* `C69_inflow_refuted`: The flow of particles is clamped at zero but that of energy is not: plasma flowing in takes energy from the neutrals.
* `C71_xenon_refuted`: The xenon fit falls to less than 10^-43 at 1300 eV; just above it the curve is 1.3 * 10^-31.
* `C71_tungsten_refuted`: The tungsten fit falls to less than 10^-198 at 1500 eV; just above it the curve is 1.9 * 10^-31.
* `C71_simplified_refuted`: At 0.52 eV they jump from zero.
* `C72_ionisation_energy_refuted`: It loses total energy unless atoms and ions move together: the difference of the kinetic energies is not given to the ions as heat.
* `C72_solkit_energy_refuted`: The kinetic energy lost in it heats no species.
* `C73_deuterium_refuted`: The default `sheathmult` of the potential gives zero current only where Te + Ti = 2 A Te (hydrogen with equal temperatures), not for deuterium as the comment says.
* `C74_history_refuted`: An implicit integrator also evaluates at earlier times (rejected steps, internal stages); the boundary then relaxes further than the elapsed time allows: it depends on the evaluations, not on the state and the time.
* `C75_without_walls_refuted`: Without walls (sheath_ydown = false) at an end of the domain they do: the flux through the end uses the stale guard cell.
* `C76_wall_refuted`: The comment "Set drift to zero through sheath boundaries" (`diamagnetic_drift.cxx`) is only true if the temperature is the same in guard cell and last cell; with T falling towards the sheath the face velocity is not zero.
* `C77_boussinesq_refuted`: With the (default) Boussinesq approximation the polarisation current is that of the assumed mass density: deuterium at half the reference density carries half the current which the vorticity equation needs.
* `C78_wall_current_refuted`: At a wall the vorticity equation keeps a diamagnetic current which `diamagnetic_drift` sets to zero for the species.
* `C79_steady_refuted`: `relax_potential` leaves out the charge in the pressure terms, so that the electrons' pressure counts with the wrong sign; the steady state is not that of the vorticity definition.
* `C79_defaults_refuted`: The defaults lambda_1 = 1, lambda_2 = 10 contradict the comment "lambda_1 > lambda_2 > 1".
* `C79_heat_refuted`: The energy given by the polarisation current is 3/2 P Div J in `relax_potential` and P Div J in `polarisation_drift`.
* `C79_neutral_heat_refuted`: A species with charge 0 is heated by the polarisation current in `relax_potential`.
* `C80_empty_refuted`: Without charged particles the mean collision frequency is 0/0.
* `C81_no_new_maximum_refuted`: ... but not in a field-aligned grid (g23 not zero): flux across Y faces carries the mean of T on both sides of the face, not the value of the side it comes from, so a peak of density and temperature loses particles with less than its own energy and gets hotter.
* `C81_energy_refuted`: Kinetic energy lost to anomalous viscosity does not become heat: the total energy of a closed box falls.
* `C82_viscosity_refuted`: ... and the mass is missing for any other species: deuterium has half the viscosity.
* `C82_viscous_heating_refuted`: Viscosity takes kinetic energy which does not become heat.
* `C82_switch_refuted`: thermal_conduction = false in the input does nothing: the option is read as "thermal_conducton" (include/neutral_parallel_diffusion.hxx 40).
* `C84_downhill_refuted`: ... but from cold to hot below 0.01 eV at 1e20 m^-3, where the formula for the Coulomb logarithm is negative.
* `C85_conserves_refuted`: ... so that particles are created or lost where the pitch varies: 1 / Theta is outside of the divergence.
* `C85_documented_refuted`: ... but not for any other pitch: the code has D / Theta^2, the documentation D / Theta ...
* `C85_momentum_refuted`: ... and momentum, which already contains the mass, diffuses with AA nu, not nu.
* `C85_isothermal_refuted`: Particles diffuse without their energy: where density arrives at uniform temperature, the temperature falls.
* `C86_stays_equal_refuted`: Refuted: that the temperatures stay equal. set_temperature reads without boundaries, so that a later boundary condition (setBoundary) on the other species changes its temperature and not the copy.
* `C88_cold_refuted`: Refuted: that the frequency is continuous at 0.1 eV. The constant 10 used below does not meet the formula used above: at n = e^40 m^-3 all colder plasmas collide more than 1.5 times as often.
* `C88_opposite_charges_refuted`: Refuted: that every pair of charged species has a Coulomb logarithm. Between ions of opposite charge the argument of log is negative (the product of the charges has no absolute value), so that the frequency is not a number; pairs with electrons are skipped, pairs of ions are not.
* `C89_crossing_through_zero_refuted`: A front which passes through the set point by way of an error of exactly zero has crossed it, but no crossing is counted (the test asks for two successive errors of opposite sign), so that the integral is not reset either.
* `C90_electric_work_refuted`: Refuted: that the equation of energy is the equation of the energy of the species. It has no work of the parallel electric field, which accelerates the species in the equation of momentum: the pressure derived from the energy makes up for it.
* `C92_helium_ionisation_energy_refuted`: Not at every temperature: at 0.1 eV and the highest density the electrons lose less than 4 eV with an ionisation of helium, whose potential is 24.586 eV.
* `C92_helium_recombination_cold_refuted`: In cold helium the fit collapses: at 0.1 eV and the lowest density recombination is more than 10^60 times slower than at 1 eV, where it should be faster.
* `C92_charge_exchange_cold_refuted`: The rate of charge exchange should rise with temperature, but the fit is clipped at 0.01 eV, outside its range: there the rate is over three times that at 1 eV.
* `C92_legacy_ionisation_cold_refuted`: In cold gas the two rates of ionisation of hydrogen differ by a factor of more than 10^8.
* `C93_split_refuted`: The transformation in a cell depends on where the processors divide the grid: the first and last cell of each use one-sided differences.
* `C93_guard_cells_refuted`: Guard cells next to another processor are never set, while derivatives of the cylindrical velocity read them.
* `C93_outflow_temperature_refuted`: The temperature used at the target is that of before the outflow boundary.
* `C93_pressure_refuted`: Below a floor the published pressure is not density times temperature.
* `C93_target_speed_refuted`: The speed in the heat flux to the target does not depend on the mass of the species, as a sound speed does.
* `C93_momentum_refuted`: Momentum carried away by lost particles is counted twice: the equation of the velocity takes the momentum source without subtracting the velocity times the particle source.
* `C94_restore_refuted`: If the heat flux throws, the grid spacing of the mesh stays multiplied by rho_s0.
* `C95_density_refuted`: Where the density varies it is not an implicit step of conduction: the density is inside the divergence but outside of the gradient.
* `C95_scale_refuted`: Where the scaling of time derivatives varies it is not either: the scaling is put inside the divergence.
* `C95_log_refuted`: With evolve_log the preconditioner acts on ddt(P), which the solver does not read, whatever the coefficients: ddt(logP) stays as it is.
* `C95_energy_refuted`: So it is not an implicit step of conduction, even of uniform gas.
* `C95_energy_coefficient_refuted`: Its coefficient lacks the factor 2/3 between energy and pressure.
* `C95_neutral_pressure_refuted`: Pressure diffuses with 5/3 Dnn in the equation (src/neutral_mixed.cxx 391), not with Dnn as in the preconditioner.
* `C96_sheath_refuted`: With one cell between two targets the second assignment overwrites the first: dissipation at the lower target is lost.
* `C96_sheath_energy_refuted`: If not, this dissipation drives the flow.
* `C96_relax_refuted`: With ion pressure it does not: the charge is missing, so that the pressure of doubly charged ions counts twice.
* `C97_scale_refuted`: At an extremum it does: the threshold 1e-10 for the second derivative is an absolute number.
* `C97_positive_refuted`: Data which are nowhere negative may have a negative value at a face.
* `C98_energy_time_refuted`: The manual lets any source depend on time: evolve_energy ignores the setting.
* `C98_neutral_refuted`: The same settings of a species evolved by neutral_mixed are ignored: the source does not follow the function and is not zero outside of the core.
* `C98_mesh_name_refuted`: The manual names the field of the grid file S<name>_src: such a field has no effect.
* `C98_log_default_refuted`: Without a profile the logarithm starts at minus infinity, while the variable itself would start at zero.
* `C99_extremum_refuted`: In exact arithmetic there is none at all (C23); in double precision a face value may lie below both cells.
* `C99_transport_refuted`: With wave speeds equal to the flow speeds it may: the velocity at a face, rounded, exceeds the speeds of both cells.
* `C99_order_refuted`: From three components on, the order matters in double precision (C03 holds for exact numbers).
* `C100_inflow_refuted`: Ions flowing in through a target are not taken from the neutrals (or anything else): nuclei come out of the wall.
* `C101_thermal_force_refuted`: The thermal force works on species with different velocities, and nothing takes the energy for it: electrons at 2 and ions at 5, with density 2 and a gradient 1 of the electron temperature, gain 0.71 * 2 * 3.
* `C101_energy_equation_refuted`: So with EvolveEnergy ionisation of slow atoms among fast ions makes energy out of nothing: its equation has S_E + V S_NV where that of the energy evolved, 3/2 P + A N V^2 / 2, needs a further - A V^2 / 2 S_N.
* `C102_set_once_refuted`: examples/stellarator-2pt-model gives the electrons both zero_current and evolve_momentum: the velocity of zero current is replaced unread.
* `C102_overlooked_refuted`: In examples/1D-hydrogen-equalT (and solkit-comparison/single-temperature) noflow_boundary of d+ runs before the ions get a temperature, and leaves it out.
* `C103_electromagnetic_refuted`: electromagnetic throws if any species has no charge entry: a plasma which evaluates no longer does with a neutral gas.
* `C104_final_read_refuted`: The transform component copies over an entry which has been read as final.
* `C104_silent_order_refuted`: quasineutral electrons listed before the ions are evaluated without them.
* `C107_momentum_flow_refuted`: evolve_momentum.cxx 242-243 asks for `momentum_flux_ylow` and reads `momentum_flow_ylow`; with `diagnose`, a state with the first and without the second ends in an exception.

## 6. Further observations (read in the code, not stated as theorems)

* `collisions.cxx`: a temperature GET throws if only one species of a pair has a temperature; opposite-sign ion pairs give the logarithm of a negative number.
* `adas_reaction.cxx`: charges of the four species of a charge exchange are not checked.
* `evolve_pressure.cxx` 152-160, 284-288: `fix_momentum_boundary_flux` is uninitialised if `numerical_viscous_heating` is false but `diagnose` is true; line 288 uses the MC limiter whatever limiter was chosen.
* `relax_potential.cxx` 167: `bndry_flux` may be used uninitialised.
* `electromagnetic.cxx`: the first loop reads `species["charge"]` of a const Options, which throws if a species has none; the `first`-call pattern with static variables (81-100, and vorticity.hxx 88-104) is shared by all instances.
* `amjuel_helium.cxx`: recombination multipliers are read from the section of the component's own name in one place and from "he" in another.
* The density equation uses FV::Div_par_mod while vorticity uses the central Div_par(NV): charge is conserved to the order of the schemes only.
* Legacy hydrogen radiated power (`radiation.cxx`) jumps by about a fifth at T = 20 eV.
* `neutral_mixed.cxx`: a comment says viscous heating does not yet balance viscosity; it does (C61).
* `full_velocity.cxx`: the component is neither registered nor included in `hermes-3.cxx`, and does not set the mass AA of its species; Vz is not advected by `finally`.
* `snb_conduction.hxx` documents that collision times are needed, but the component does not read a collision frequency.
* docs/sphinx/components.rst 1224: the documented pressure advection of neutral_parallel_diffusion is that of `equation_fix = false`; the default uses 5/2.

## 7. Assumptions per theorem

Output of `Print Assumptions`, grouped.  `fun_ext` is `FunctionalExtensionality.functional_extensionality_dep`, `sig_forall_dec` and `sig_not_dec` are in `ClassicalDedekindReals`, `classic` is `Classical_Prop.classic`.

**Closed under the global context** (64):
`C01_read_freezes_value`, `C02_domain_read_stable_partial`, `C02_domain_read_stable_refuted`, `C04_rejected_call_keeps_all_values`, `C04_presence_answer_stays_true`, `C04_presence_noboundary_partial`, `C04_presence_noboundary_refuted`, `C05_order_of_calls`, `C05_finally_sees_final_state`, `C06_components_created_are_those_listed`, `C06_listed_names_are_unique`, `C06_requested_components_are_unique`, `C06_padded_list_round_trip`, `C07_evaluations_are_independent`, `C07_no_read_marks_at_start`, `C08_accepted_assignments_partial`, `C08_one_equals_sign_refuted`, `C08_copies_right_to_left_partial`, `C08_listed_order_refuted`, `C08_copy_respects_read_marks_refuted`, `C28_limit_direction_partial`, `C28_limit_direction_refuted`, `C28_flows_direction`, `C35_one_pi_controller_partial`, `C51_accepted_entries_partial`, `C51_accepted_lists`, `C63_stress_boundary_partial`, `C64_momentum_flows`, `C64_powers`, `C87_formulas_balance`, `C87_names_distinct`, `C95_linear`, `C96_outer_cells`, `C98_metric_throws`, `C98_metric_choice`, `C102_shipped`, `C102_set_once_partial`, `C102_set_once_refuted`, `C102_overlooked_partial`, `C102_overlooked_refuted`, `C103_record`, `C103_effects`, `C103_finally`, `C103_provided`, `C103_pressure_needs_density`, `C103_electromagnetic_partial`, `C103_electromagnetic_refuted`, `C104_finally`, `C104_no_write_partial`, `C104_final_read_partial`, `C104_final_read_refuted`, `C104_silent_order_refuted`, `C104_species_order`, `C104_species_exchanged`, `C105_looks`, `C105_always`, `C105_order_partial`, `C105_sheath_last`, `C106_nothing_left_out`, `C106_sources`, `C108_defaults`, `C108_required`, `C107_asked_before_read`, `C107_momentum_flow_refuted`

**sig_forall_dec** (9):
`C50_nothing_else_changes`, `C51_densities`, `C64_momentum_flow_saved_refuted`, `C82_switch_refuted`, `C86_pressure`, `C86_same_temperature`, `C86_momentum`, `C98_core`, `C98_core_exact`

**fun_ext, sig_forall_dec** (333):
`C03_sources_accumulate`, `C03_order_of_components_is_irrelevant`, `C16_particles_charge_momentum`, `C16_energy_defect`, `C16_energy_refuted`, `C17_effective_temperature`, `C18_charge_exchange`, `C18_energy_defect`, `C20_tables_of_the_code`, `C23_limiters_create_no_extrema`, `C23_second_order_on_linear_profiles`, `C23_limiters_mirror_symmetric`, `C23_superbee_as_documented`, `C23_superbee_refuted`, `C23_superbee_average_refuted`, `C23_fromm_linear`, `C24_conduction_is_divergence`, `C24_conduction_conserves`, `C24_no_flux_through_closed_ends`, `C24_conduction_constant`, `C24_conduction_dissipates`, `C24_conduction_periodic`, `C24_conduction_flow_diagnostic`, `C24_index_diffusion_is_divergence`, `C24_index_diffusion_conserves`, `C24_index_diffusion_constant`, `C24_index_diffusion_dissipates`, `C25_hyperdiffusion_conserves_partial`, `C25_hyperdiffusion_conserves_refuted`, `C25_independent_of_y_index_refuted`, `C25_integral_general`, `C25_third_derivative`, `C25_boundary_third_derivative`, `C25_boundary_third_derivative_refuted`, `C26_conduction_split`, `C27_divergence_of_face_fluxes`, `C27_divergence_of_face_fluxes_with_g`, `C27_integral_is_radial_flux`, `C27_integral_is_radial_flux_with_g`, `C27_closed_boundary`, `C27_closed_boundary_with_g`, `C27_processors`, `C27_divergence_of_flow`, `C27_divergence_free_partial`, `C27_divergence_free_refuted`, `C27_poloidal_x`, `C27_poloidal_y`, `C27_poloidal_outflow`, `C28_flows_conserve`, `C28_upwind_conserve`, `C28_limit_conserves`, `C28_flow_diagnostics_partial`, `C28_upwind_flow_diagnostics_partial`, `C28_top_flow_diagnostic_refuted`, `C28_constants`, `C28_versions_agree_partial`, `C28_versions_agree_refuted`, `C28_z_gradient`, `C28_z_limit`, `C29_excess_nonnegative`, `C29_heating_at_closed_ends`, `C29_diagnostic_refuted`, `C29_heating_is_energy`, `C30_limits_after_update_partial`, `C30_limits_always_partial`, `C30_initial_value_refuted`, `C30_changed_limits_refuted`, `C31_buffers`, `C31_size_zero_refuted`, `C31_negative_size_refuted`, `C32_least_squares`, `C32_exact_on_a_line`, `C32_zero_when_times_coincide`, `C33_on_the_field_line`, `C33_between_the_cells`, `C33_no_crossing_refuted`, `C33_fully_detached_refuted`, `C34_trapezium`, `C34_repeated_evaluation`, `C34_positive`, `C34_back_and_forth_refuted`, `C34_same_on_all_processors`, `C34_target_temperature_refuted`, `C35_detachment_partial`, `C35_derivative_refuted`, `C35_fresh_run_refuted`, `C35_two_pi_controllers_refuted`, `C36_extrapolation_between_zero_and_last_cell`, `C36_sheath_value_between_zero_and_last_cell`, `C36_exponential_mode_grows_refuted`, `C36_exponential_mode_not_negative`, `C36_linear_mode_negative_refuted`, `C39_speed_at_the_sheath`, `C41_lower_end`, `C41_upper_end`, `C41_no_flux_through_the_end`, `C43_pumped_cells`, `C44_channels_partial`, `C44_same_switches_partial`, `C44_own_switches_refuted`, `C44_flags_unset_refuted`, `C45_density`, `C45_pressure`, `C45_relaxation`, `C45_energy`, `C45_energy_with_average_refuted`, `C45_average_boundary`, `C45_momentum`, `C46_viscous_stress_limited`, `C46_vanished_pressure_refuted`, `C47_roundtrip`, `C47_roundtrip_back`, `C47_boundary_energy`, `C47_sources_agree_iff`, `C47_particle_source_refuted`, `C47_work_at_a_point`, `C48_quasineutral`, `C49_zero_current`, `C49_zero_current_defined`, `C50_force_balance`, `C51_one_at_sign_refuted`, `C51_listed_twice_refuted`, `C53_ambipolar`, `C53_neutrals`, `C53_coefficient`, `C53_conduction_refuted`, `C53_pressure_of_charged`, `C53_conduction_with_collisions`, `C53_conduction_at_zero_refuted`, `C54_still_a_metric`, `C54_scale_consistent`, `C54_curvature`, `C55_consistent`, `C55_equals_normalised`, `C55_volume_sign`, `C56_radiation_cools`, `C56_units`, `C56_unphysical_zero`, `C56_unphysical_cell_refuted`, `C56_no_core`, `C56_radiated_power`, `C57_scaling`, `C57_steady_states`, `C58_solver_value`, `C58_core_average`, `C58_core_average_refuted`, `C59_average_face`, `C60_average_within_samples`, `C60_average_exact_for_linear`, `C60_average_exact_for_products_of_linear_profiles`, `C60_average_non_negative`, `C60_weights_sum_to_one_iff`, `C60_constants_refuted`, `C61_wall_density_low`, `C61_wall_density_high`, `C61_wall_guard_refuted`, `C61_no_diffusion_through_walls`, `C61_no_radial_diffusion`, `C61_viscous_energy`, `C61_viscosity_slows`, `C61_hold`, `C62_consistent`, `C62_ampere`, `C62_ampere_refuted`, `C62_neutral`, `C62_keeps`, `C62_definite`, `C62_defined`, `C63_electron_viscosity_refuted`, `C63_perpendicular_viscosity`, `C63_perpendicular_pointwise_refuted`, `C63_stress_limited`, `C63_total_stress_partial`, `C63_total_stress_refuted`, `C63_stress_boundary_refuted`, `C63_exb_transfer`, `C63_exb_transfer_refuted`, `C63_braginskii_coefficients`, `C64_energy_flow_factors_refuted`, `C65_pump`, `C65_closure_current`, `C65_closure_current`, `C66_perp_index_diffusion_conserves`, `C66_perp_index_diffusion_constant`, `C66_closed_radial_boundary_refuted`, `C66_isotropic_refuted`, `C66_z_diffusion_conserves`, `C66_z_diffusion_dissipates`, `C66_z_hyperdiffusion_conserves`, `C66_z_hyperdiffusion_dissipates`, `C67_laplacian_conserves`, `C67_laplacian_constant`, `C68_exb_empty_cell`, `C68_exb_poloidal_refuted`, `C68_limited_diffusion_radially`, `C68_limited_diffusion_poloidally_refuted`, `C71_simplified_straight`, `C71_simplified_refuted`, `C72_solkit_conserves`, `C72_solkit_friction`, `C72_solkit_energy_refuted`, `C72_solkit_low_density`, `C73_face_value`, `C76_untouched`, `C76_isothermal`, `C76_current`, `C76_wall_partial`, `C76_wall_refuted`, `C77_neutral`, `C77_defined`, `C77_boussinesq_partial`, `C77_boussinesq_refuted`, `C77_non_boussinesq_throws`, `C77_isothermal`, `C78_exchange`, `C78_periodic`, `C78_wall_current_refuted`, `C79_steady_partial`, `C79_Pi_hat`, `C79_steady_refuted`, `C79_rate`, `C79_defaults_refuted`, `C79_heat`, `C79_heat_refuted`, `C79_neutral_heat_refuted`, `C80_friction`, `C80_empty_refuted`, `C80_sheath`, `C80_core`, `C81_no_target_flux`, `C81_uniform_temperature`, `C81_uniform_velocity`, `C81_axisymmetric`, `C81_no_new_maximum_partial`, `C81_no_new_maximum_refuted`, `C81_energy_refuted`, `C85_conserves_partial`, `C85_weighted`, `C85_conserves_refuted`, `C85_documented_partial`, `C85_documented_refuted`, `C85_momentum_refuted`, `C85_isothermal_refuted`, `C86_stays_equal_refuted`, `C86_order`, `C86_together`, `C87_species_names`, `C87_all_levels`, `C87_energies`, `C87_reverse_heating`, `C88_friction_coefficient`, `C89_integral_and_crossings`, `C89_position_form`, `C89_velocity_form`, `C89_forms_differ`, `C89_crossing_through_zero_refuted`, `C89_density_answer`, `C89_temperature_answer`, `C89_on_target`, `C90_electric_work_refuted`, `C90_total_momentum`, `C93_outflow`, `C93_outflow_temperature_refuted`, `C93_published`, `C93_pressure_above_floors`, `C93_pressure_refuted`, `C93_energy`, `C93_sources`, `C93_no_sources`, `C93_density_stops`, `C93_momentum_refuted`, `C93_momentum_twice`, `C94_snb`, `C94_restore_refuted`, `C95_disabled`, `C95_pressure`, `C95_well_posed`, `C95_density_refuted`, `C95_scale_refuted`, `C95_log_refuted`, `C95_log_untouched`, `C95_energy_untouched`, `C95_energy_refuted`, `C95_energy_coefficient_refuted`, `C95_neutral`, `C95_neutral_pressure_refuted`, `C96_potential`, `C96_reduction`, `C96_scales`, `C96_defined`, `C96_currents`, `C96_currents_order`, `C96_conserves`, `C96_hyper_z`, `C96_vort_dissipation`, `C96_phi_dissipation`, `C96_sheath_partial`, `C96_sheath_refuted`, `C96_sheath_energy_partial`, `C96_sheath_energy_refuted`, `C96_relax_partial`, `C96_relax_refuted`, `C97_monotone`, `C97_inwards`, `C97_linear`, `C97_cubic`, `C97_shared_face`, `C97_mirror`, `C97_negate`, `C97_shift`, `C97_scale_partial`, `C97_scale_refuted`, `C97_positive_refuted`, `C98_density`, `C98_pressure`, `C98_energy_partial`, `C98_neutral_partial`, `C98_throws`, `C98_same_heating`, `C98_energy_time_refuted`, `C98_neutral_refuted`, `C98_mesh_name_refuted`, `C98_floors`, `C99_unit`, `C99_exact_edges`, `C99_faces_positive`, `C99_faces_empty`, `C99_faces_const`, `C99_faces_near_partial`, `C99_sources`, `C99_order_partial`, `C99_two_sources`, `C99_exchange`

**fun_ext, sig_forall_dec, sig_not_dec** (117):
`C21_divergence_of_face_fluxes`, `C21_integral_is_end_flux`, `C21_closed_line`, `C21_periodic_line`, `C21_flow_diagnostic`, `C21_empty_cell_not_drained`, `C21_C22_uniform_flow`, `C22_divergence_of_face_fluxes`, `C22_integral_is_end_flux`, `C22_closed_line`, `C22_periodic_line`, `C26_sound_speed_across_processors_refuted`, `C26_any_split_of_Div_par_mod`, `C26_any_split_of_Div_par_fvv`, `C26_two_guard_cells_needed`, `C29_kinetic_energy_balance`, `C29_heating_equals_dissipation_refuted`, `C29_heating_nonnegative_partial`, `C29_heating_nonnegative_MC_refuted`, `C29_heating_nonnegative_at_ends_refuted`, `C29_free_boundary_balance_refuted`, `C29_kinetic_flow`, `C38_insulating_no_current_single_charge`, `C38_insulating_no_current_pure`, `C38_insulating_ions_at_speed_of_sound`, `C38_insulating_double_charge_refuted`, `C38_insulating_two_species_refuted`, `C39_insulating_ion_heat_upper`, `C39_simple_electron_heat`, `C39_simple_ion_heat`, `C39_simple_sheath_heats_refuted`, `C39_full_electron_heat`, `C39_full_ion_heat`, `C39_insulating_electron_heat_lower`, `C39_insulating_electron_heat_upper_refuted`, `C40_insulating_sheath_refuted`, `C40_insulating_ion_speed_refuted`, `C41_line_conserved`, `C41_momentum_by_default_refuted`, `C42_radial_walls`, `C42_targets`, `C42_targets_pass_no_neutrals`, `C42_walls`, `C42_wall_area`, `C42_wall_takes_heat_iff`, `C42_wall_takes_heat`, `C43_radial_walls`, `C43_targets`, `C43_targets_at_most_what_arrives`, `C43_ions_lost_arrive`, `C43_dx_varying_refuted`, `C43_walls`, `C43_pump`, `C43_pump_energy_refuted`, `C44_own_flow_refuted`, `C46_heat_flux_limited`, `C46_conductivity`, `C46_cold_plasma_refuted`, `C46_flux_through_faces_refuted`, `C46_guard_cells`, `C47_work_on_a_line`, `C47_work_p_div_v`, `C52_sound_speed`, `C52_default_options`, `C52_default_options_refuted`, `C52_thermal_speed`, `C52_in_the_domain`, `C54_lengths_areas_volumes`, `C58_one_step`, `C58_any_steps`, `C58_between_refuted`, `C59_decay_keeps_domain`, `C61_diffusion_limits`, `C61_particles`, `C61_momentum`, `C61_heat`, `C61_empty_cell`, `C61_sound_speed`, `C63_parallel_viscosity`, `C64_derived_constants`, `C64_conversion_factors`, `C64_settings_normalised`, `C64_ampere_coefficient`, `C64_alfven_speed`, `C64_cross_section`, `C65_closure_sinks`, `C65_closure_sinks_neutral`, `C65_closure_heat`, `C65_neutrals_lost_refuted`, `C65_closure_heat`, `C69_energy_at_targets_partial`, `C69_inflow_refuted`, `C74_forward`, `C75_independent`, `C83_SI`, `C83_order`, `C88_opposite_charges_refuted`, `C88_opposite_charges`, `C88_neutral`, `C88_electron_neutral`, `C88_neutral_reciprocal`, `C90_energy_equation`, `C90_particles_on_a_line`, `C90_energy_on_a_line`, `C93_there_and_back`, `C93_lengths`, `C93_gradients`, `C93_split_refuted`, `C93_guard_cells_refuted`, `C93_inside_is_set`, `C93_cylindrical`, `C93_target`, `C93_targets_elsewhere`, `C93_targets_mirror`, `C93_target_speed_refuted`, `C99_exact`, `C99_transport_partial`

**classic, fun_ext, sig_forall_dec, sig_not_dec** (130):
`C09_collisions_conserve_momentum`, `C09_collisions_finish`, `C10_collisions_conserve_energy`, `C10_exchange_without_friction_heating`, `C10_friction_never_cools`, `C10_heat_flows_from_hot_to_cold`, `C11_momentum_balance_of_rates`, `C11_rates_non_negative`, `C11_frequencies_add_up`, `C11_each_pair_at_most_once`, `C11_each_pair_at_least_once`, `C12_switches_honoured_partial`, `C12_no_rate_no_source`, `C12_ion_neutral_switch_refuted`, `C12_neutral_neutral_switch_refuted`, `C13_thermal_force_conserves_momentum`, `C13_electron_force`, `C13_ion_forces`, `C14_particles_and_charge`, `C14_rate`, `C15_momentum_and_energy`, `C15_potential_energy_refuted`, `C17_momentum_and_energy`, `C17_particles`, `C17_isotopes_momentum_and_energy`, `C17_option_refuted`, `C19_lookup_is_total`, `C19_between_surrounding_values`, `C19_nodes_reproduced`, `C19_bilinear_data_reproduced`, `C19_edge_values`, `C20_evaluates_the_fit`, `C20_edge_values`, `C20_rectangular_refuted`, `C34_density_source_energy`, `C37_simple_sheath_no_current_lower`, `C37_simple_sheath_no_current_upper`, `C37_simple_sheath_supersonic_ions_refuted`, `C37_full_sheath_no_current_flat_partial`, `C37_full_sheath_no_current_pure_partial`, `C37_full_sheath_glancing_refuted`, `C37_full_sheath_falling_temperature_refuted`, `C39_full_sheath_never_heats`, `C40_simple_sheath_mirrored`, `C40_full_sheath_mirrored`, `C47_energy_rate`, `C56_curves_nonnegative`, `C56_carbon_power`, `C57_time_scale`, `C57_time_of_conduction`, `C58_between`, `C58_bounded`, `C59_decay_values`, `C59_decay_continues_refuted`, `C59_decay_negative_dx_refuted`, `C59_decay_in_y_refuted`, `C61_viscosity_mass_refuted`, `C61_hold_conserves_refuted`, `C64_conversion_factors_refuted`, `C70_low_density_diffusion`, `C71_fits_join_low`, `C71_fits_join_high_partial`, `C71_xenon_refuted`, `C71_tungsten_refuted`, `C72_ionisation_conserves`, `C72_ionisation_rate`, `C72_ionisation_energy_refuted`, `C72_ionisation_energy_loss`, `C72_charge_exchange_rate`, `C72_ionisation_per_particle`, `C73_zero_current`, `C73_only_then`, `C73_deuterium_refuted`, `C74_between`, `C74_history_refuted`, `C75_without_walls_refuted`, `C82_down_pressure`, `C82_particles_conserved`, `C82_isobaric`, `C82_isothermal`, `C82_uniform_flow`, `C82_energy`, `C82_viscosity_partial`, `C82_viscosity_refuted`, `C82_viscous_heating_refuted`, `C83_down_density`, `C84_braginskii`, `C84_downhill_partial`, `C84_downhill_refuted`, `C87_sources_follow_formula`, `C87_shipped_tables`, `C88_electron_electron`, `C88_electron_ion`, `C88_ion_ion`, `C88_logarithm_joins`, `C88_cold_refuted`, `C91_hydrogen_ionisation_energy`, `C91_hydrogen_ionisation_cools`, `C91_hydrogen_ionisation_rises`, `C91_hydrogen_ionisation_falls`, `C91_hydrogen_recombination_falls`, `C91_hydrogen_recombination_density`, `C92_helium_ionisation_energy_partial`, `C92_helium_ionisation_energy_refuted`, `C92_helium_ionisation_rises`, `C92_helium_ionisation_falls`, `C92_helium_recombination_falls_partial`, `C92_helium_recombination_cold_refuted`, `C92_charge_exchange_rises_partial`, `C92_charge_exchange_cold_refuted`, `C92_legacy_ionisation_rises`, `C92_legacy_ionisation_agrees_partial`, `C92_legacy_ionisation_cold_refuted`, `C98_log_start`, `C98_log_defined`, `C98_log_restart`, `C98_log_default_refuted`, `C99_binary64`, `C99_extremum_refuted`, `C99_transport_refuted`, `C99_order_refuted`, `C100_reactions`, `C100_line`, `C100_recycled_partial`, `C100_inflow_refuted`, `C101_momentum`, `C101_energy_partial`, `C101_thermal_force_refuted`, `C101_energy_equation`, `C101_energy_equation_refuted`

