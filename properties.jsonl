{"id": "C01", "title": "A quantity that has been read can no longer change in that evaluation", "statement": "Within one right-hand-side evaluation, once any component has read a state quantity with the full read `get`, every later `set`, `add`, `subtract` or `setBoundary` on that quantity throws, and every later read returns exactly the value that was read first.", "quantifier": "every state entry, every value type, every history of set/add/subtract/setBoundary/get/getNoBoundary/isSetFinal/isSetFinalNoBoundary calls, in any order and of any length", "why_tests_cant": "A test runs one short sequence of calls; the guarantee is about every interleaving of an unbounded number of components on one entry.", "anchors": ["include/component.hxx: get, set, setBoundary, add, subtract", "src/component.cxx: isSetFinal, isSetFinalNoBoundary"]}
{"id": "C02", "title": "Domain-only reads stay valid inside the domain", "statement": "After a component reads a quantity with the domain-only read `getNoBoundary`, the values inside the domain (all cells but the boundary cells) stay the same until the end of the evaluation; only boundary cells may still be changed, and only until somebody reads the boundary too.", "quantifier": "every history of protocol calls on an entry, every field value", "why_tests_cant": "Needs all orders of readers and writers; the tests only check that `set` after `getNoBoundary` throws.", "anchors": ["include/component.hxx: getNoBoundary, setBoundary, set"]}
{"id": "C03", "title": "Sources accumulate independently of component order", "statement": "The value a reader of a source term obtains is the sum of all contributions passed to `add` minus the sum of all contributions passed to `subtract`, whatever the order of the components that contributed; contributions are never lost or counted twice.", "quantifier": "every finite list of add/subtract contributions, every permutation of it, starting from an unset or from a set entry", "why_tests_cant": "The number and order of the components is chosen by the user's input file; a test fixes one of them.", "anchors": ["include/component.hxx: add, subtract, set, getNonFinal"]}
{"id": "C04", "title": "A rejected call leaves the value alone, and presence tests stay true", "statement": "A `set`, `add`, `subtract`, `setBoundary` or read which throws leaves the stored value of the quantity unchanged; and once a component has asked whether a quantity is set (IS_SET, IS_SET_NOBOUNDARY), the answer remains correct for the rest of the evaluation.", "quantifier": "every entry, every history of protocol calls", "why_tests_cant": "Tests check the return value once; the property quantifies over everything that other components may do afterwards.", "anchors": ["include/component.hxx: get, set, setBoundary", "src/component.cxx: isSetFinal, isSetFinalNoBoundary"]}
{"id": "C05", "title": "All transforms run before all finallys, once each, in the configured order", "statement": "One evaluation calls `transform` of every component exactly once in the order given in the input, then `finally` of every component exactly once in the same order; `finally` never sees a state which a later `transform` will modify; if a component throws nothing after it is run.", "quantifier": "every list of components (any number), every behaviour of the components including throwing", "why_tests_cant": "Tests use one component; ordering bugs appear only with several components and exceptions.", "anchors": ["src/component_scheduler.cxx: ComponentScheduler::transform"]}
{"id": "C06", "title": "The component list means what it says", "statement": "The components created are exactly the non-empty comma-separated names in the `components` option, expanded by each one's `type` list, in order, with surrounding spaces, tabs, carriage returns and parentheses ignored and no component with an empty name ever created.", "quantifier": "every input string and every set of `type` options", "why_tests_cant": "The input grammar is infinite; tests use two examples.", "anchors": ["src/component_scheduler.cxx: ComponentScheduler::ComponentScheduler"]}
{"id": "C07", "title": "Evaluations do not leak state into each other", "statement": "What the components see in one right-hand-side evaluation depends only on the time, the units and their own internal data: values and read marks put into the state by an earlier evaluation never make a later one throw or see stale values.", "quantifier": "every sequence of evaluations at any times, every list of components, including evaluations which throw", "why_tests_cant": "Needs histories of evaluations of unbounded length.", "anchors": ["hermes-3.cxx: Hermes::rhs"]}
{"id": "C08", "title": "State copies made by the `transform` component are well-formed and obey the read marks", "statement": "The `transforms` option is accepted exactly when every comma-separated entry has one `=`; each entry copies right to left in the state; a copy must not overwrite a quantity which another component has already read.", "quantifier": "every option string, every state and read history", "why_tests_cant": "Depends on arbitrary strings and arbitrary earlier readers.", "anchors": ["src/transform.cxx: Transform::Transform, Transform::transform"]}
{"id": "C09", "title": "Collisions conserve momentum", "statement": "The collisions component changes the sum over all species of the momentum source by exactly zero at every point.", "quantifier": "every set of species with any names, charges, masses, densities, velocities, temperatures and any switch settings for which the component does not throw", "why_tests_cant": "Any number of species and every order of pair visits; tests check one pair.", "anchors": ["src/collisions.cxx: Collisions::collide, Collisions::transform"]}
{"id": "C10", "title": "Collisions conserve energy and heat flows from hot to cold", "statement": "With frictional heating on, the thermal energy added by collisions equals the kinetic energy removed by friction, summed over species (total energy is conserved); frictional heating of each species is non-negative; with no relative motion the energy given to each of two species has the sign of the other's temperature excess and the two cancel.", "quantifier": "every set of species and values; every collision frequency and momentum coefficient >= 0", "why_tests_cant": "Real-number identity over an unbounded number of species.", "anchors": ["src/collisions.cxx: Collisions::collide"]}
{"id": "C11", "title": "Collision frequencies satisfy momentum balance", "statement": "The two collision frequencies recorded for a pair satisfy m1 n1 nu12 = m2 n2 nu21 (for densities above the floor), both are non-negative, and each species' total is the sum over its partners, each unordered pair being counted exactly once.", "quantifier": "every number of species, every density and mass", "why_tests_cant": "Pair coverage depends on the number and names of the species.", "anchors": ["src/collisions.cxx: Collisions::collide, Collisions::transform"]}
{"id": "C12", "title": "Collision switches are honoured", "statement": "When an `electron_electron`, `electron_ion`, `electron_neutral`, `ion_ion`, `ion_neutral` or `neutral_neutral` switch is off, no collision of that kind contributes to any source or frequency.", "quantifier": "every set of species names and charges, every switch combination", "why_tests_cant": "The branch taken depends on the alphabetical order of species names.", "anchors": ["src/collisions.cxx: Collisions::transform"]}
{"id": "C13", "title": "The thermal force conserves momentum", "statement": "The thermal force component adds zero net momentum: what ions gain electrons lose, and what heavy ions gain light ions lose.", "quantifier": "every set of species with any masses, charges, densities and temperature gradients", "why_tests_cant": "Any number of species and pairs.", "anchors": ["src/thermal_force.cxx: ThermalForce::transform"]}
{"id": "C14", "title": "Electron-impact reactions conserve particles and charge", "statement": "An AMJUEL ionisation or recombination reaction creates exactly as many product as it removes reactant heavy particles, and the total charge source over the two heavy species and electrons is zero.", "quantifier": "every density, temperature, velocity and rate; every pair of charges of the species", "why_tests_cant": "Real-number identity at every point of every state.", "anchors": ["include/amjuel_reaction.hxx: AmjuelReaction::electron_reaction"]}
{"id": "C15", "title": "Electron-impact reactions conserve momentum and account for all energy", "statement": "An AMJUEL reaction transfers momentum without loss; the total (thermal + kinetic) energy of the heavy species is conserved; and the total energy change including electrons is the potential energy term minus the radiated energy computed from the AMJUEL table.", "quantifier": "every density, velocity, temperature, mass and rate", "why_tests_cant": "Real-number identity at every point of every state.", "anchors": ["include/amjuel_reaction.hxx: AmjuelReaction::electron_reaction"]}
{"id": "C16", "title": "OpenADAS reactions conserve particles, charge, momentum and energy", "statement": "An OpenADAS ionisation/recombination conserves heavy particles, charge and momentum, and the total (thermal + kinetic) energy of the heavy species.", "quantifier": "every density, velocity, temperature, mass and rate", "why_tests_cant": "Real-number identity at every point of every state.", "anchors": ["src/adas_reaction.cxx: OpenADAS::calculate_rates"]}
{"id": "C17", "title": "Hydrogen charge exchange conserves particles, momentum and energy", "statement": "Hydrogen-isotope charge exchange conserves the number of atoms plus ions of each isotope, the total momentum and the total energy of the four species, for same-isotope and different-isotope collisions; the option to stop neutrals gaining momentum in charge exchange affects only the neutral species' momentum gain.", "quantifier": "every density, temperature, velocity, mass, isotope pair and option", "why_tests_cant": "Real-number identity; the same-species branch aliases the inputs.", "anchors": ["src/hydrogen_charge_exchange.cxx: HydrogenChargeExchange::calculate_rates"]}
{"id": "C18", "title": "OpenADAS charge exchange conserves particles, momentum and energy", "statement": "Charge exchange between an impurity ion and a hydrogen atom conserves heavy particles, momentum and thermal energy, and charge when the product charges balance.", "quantifier": "every state and every set of charges", "why_tests_cant": "Real-number identity at every point of every state.", "anchors": ["src/adas_reaction.cxx: OpenADASChargeExchange::calculate_rates"]}
{"id": "C19", "title": "Rate-table lookup never leaves the table", "statement": "Looking up an OpenADAS coefficient uses only valid table cells for every temperature and density, including values outside the tabulated range, reproduces the table at its nodes, and returns a value between the smallest and largest of the four surrounding table values.", "quantifier": "every table with strictly increasing axes, every query value including out-of-range", "why_tests_cant": "Queries are real numbers; a test samples a few.", "anchors": ["src/adas_reaction.cxx: get_high_index, OpenADASRateCoefficient::evaluate"]}
{"id": "C20", "title": "AMJUEL rates are positive, and outside the fitted range they take the value at its edge", "statement": "The evaluated AMJUEL coefficient equals the exponential of the published double polynomial in log T and log n, is positive for every input, depends on T and n only through their values clipped to the fit range, and evaluation reads only existing coefficients.", "quantifier": "every temperature and density (including negative and huge), every coefficient table", "why_tests_cant": "Real-number function on an unbounded domain.", "anchors": ["include/amjuel_reaction.hxx: AmjuelReaction::evaluate, clip"]}
{"id": "C21", "title": "Parallel advection conserves particles", "statement": "The volume integral of the parallel flux divergence over a field line equals the flux out of its ends, for any number of cells: interior fluxes cancel exactly, and what leaves through a non-periodic end is the face-centred density times the face-centred velocity (when the boundary flux is fixed).", "quantifier": "every number of cells, every metric, every field, velocity and wave speed, any slope limiter", "why_tests_cant": "Telescoping over an arbitrary number of cells.", "anchors": ["include/div_ops.hxx: FV::Div_par_mod"]}
{"id": "C22", "title": "Parallel momentum advection conserves momentum", "statement": "The same conservation law for the f v v operator used for momentum: interior fluxes cancel exactly, leaving only end fluxes.", "quantifier": "every number of cells, metrics, fields, velocities, wave speeds", "why_tests_cant": "Telescoping over an arbitrary number of cells.", "anchors": ["include/div_ops.hxx: FV::Div_par_fvv"]}
{"id": "C23", "title": "Slope limiters do not create new extrema", "statement": "For each slope limiter (upwind, MinMod, MC, Superbee) the reconstructed left and right edge values lie between the neighbouring cell values, the slope is zero at extrema, and a linear profile is reproduced exactly away from extrema by the second-order limiters.", "quantifier": "every triple of real cell values", "why_tests_cant": "Real-valued inputs; piecewise definition with many cases.", "anchors": ["include/div_ops.hxx: Superbee", "src/div_ops.cxx: minmod, Upwind, Fromm, MinMod, MC", "include/integrate.hxx: cellLeft, cellRight"]}
{"id": "C24", "title": "Parallel diffusion conserves and dissipates", "statement": "The parallel diffusion operators conserve the volume integral up to end fluxes, give zero for a constant profile, and with zero end flux never increase the (volume-weighted) mean square of the diffused quantity when the coefficient is non-negative.", "quantifier": "every number of cells, metric, coefficient and profile", "why_tests_cant": "Summation by parts over an arbitrary number of cells.", "anchors": ["src/div_ops.cxx: Div_par_K_Grad_par_mod, Div_par_diffusion_index"]}
{"id": "C25", "title": "Radial hyper-diffusion conserves and vanishes at closed boundaries", "statement": "The radial fourth-order dissipation operator conserves the volume integral: with boundary flux switched off nothing flows through the radial boundaries.", "quantifier": "every grid size, metric and profile", "why_tests_cant": "Depends on the index of the boundary cell; conservation is a sum over all cells.", "anchors": ["src/div_ops.cxx: D4DX4_FV_Index"]}
{"id": "C26", "title": "Results do not depend on how the field line is split between processors", "statement": "Splitting a field line between processors, with guard cells filled from the neighbouring processor, gives the same parallel flux divergence in every cell as computing it on one processor.", "quantifier": "every number of cells, every way to cut the line into processors, every field", "why_tests_cant": "A test runs on one or two fixed processor counts.", "anchors": ["include/div_ops.hxx: FV::Div_par_mod, FV::Div_par_fvv"]}
{"id": "C27", "title": "ExB advection conserves", "statement": "The ExB advection operator conserves the volume integral of the advected quantity in the X-Z plane up to radial boundary fluxes, keeps the advecting flow discretely divergence free, and with boundary flux off nothing leaves radially.", "quantifier": "every grid size, potential, density and limiter", "why_tests_cant": "Telescoping over all cells and corners.", "anchors": ["src/div_ops.cxx: Div_n_bxGrad_f_B_XPPM"]}
{"id": "C28", "title": "Perpendicular diffusion conserves", "statement": "The perpendicular diffusion operators (with flow diagnostics, upwind and limited versions) conserve the volume integral up to boundary flows and the flow diagnostics returned are exactly the flows that change each cell's content.", "quantifier": "every grid size, metric, coefficient and profile", "why_tests_cant": "Sum over all cells of a 3D mesh.", "anchors": ["src/div_ops.cxx: Div_a_Grad_perp_flows, Div_a_Grad_perp_upwind, Div_a_Grad_perp_upwind_flows", "include/div_ops.hxx: Div_a_Grad_perp_limit"]}
{"id": "C29", "title": "The numerical viscous heating diagnostic equals the kinetic energy dissipated", "statement": "The heating returned by the viscous-heating operator is the kinetic energy removed by the numerical dissipation of the momentum flux, so it is never negative, and its pressure-equation diagnostic uses the factor 2/3 (3/2 for energy).", "quantifier": "every field and velocity profile", "why_tests_cant": "Real inputs.", "anchors": ["include/div_ops.hxx: FV::Div_par_fvv_heating", "src/evolve_pressure.cxx: Sp_nvh"]}
{"id": "C30", "title": "The detachment controller's output stays inside its limits", "statement": "At every time after the first control update, for every history of measurements, restarts and time steps, the control signal applied as a source multiplier lies between `minval_for_source_multiplier` and `maxval_for_source_multiplier`.", "quantifier": "every history of (time, temperature profile) evaluations, every controller setting", "why_tests_cant": "Feedback over an unbounded number of steps.", "anchors": ["src/detachment_controller.cxx: DetachmentController::transform"]}
{"id": "C31", "title": "The detachment controller's history buffers are safe and in step", "statement": "The time and error buffers always have equal length, never exceed the configured size, hold the most recent samples in order, and no buffer access is ever out of range.", "quantifier": "every history of evaluations, every buffer size setting", "why_tests_cant": "Unbounded histories and every configuration value.", "anchors": ["src/detachment_controller.cxx: time_buffer, error_buffer, calculateGradient", "include/detachment_controller.hxx"]}
{"id": "C32", "title": "The derivative estimate is the least-squares slope", "statement": "The derivative used by the controller is exact for samples on a straight line, for any number of samples, minimises the squared error, and is zero rather than infinite when all times coincide.", "quantifier": "every list of samples of any length", "why_tests_cant": "Statement over lists of any length.", "anchors": ["src/detachment_controller.cxx: calculateGradient"]}
{"id": "C33", "title": "The detected detachment front lies on the field line", "statement": "The reported front position is between 0 and the connection length for every profile, and when the profile crosses the threshold between two cells the position lies between these cells.", "quantifier": "every profile of any length and any geometry", "why_tests_cant": "Profiles of any length.", "anchors": ["src/detachment_controller.cxx: detachment front search"]}
{"id": "C34", "title": "The PI controllers integrate the error once and never remove particles or energy when told not to", "statement": "After any sequence of evaluations at non-decreasing times the upstream density and temperature controllers' integral is the trapezoidal integral of the error since the start (or restart); repeated evaluations at one time do not change it; with the positive-only switches the integral and the multiplier are never negative; evaluating back and forth in time (as implicit solvers do) must not inflate the integral.", "quantifier": "every sequence of evaluation times and errors, every gain", "why_tests_cant": "Unbounded histories with arbitrary time sequences.", "anchors": ["src/upstream_density_feedback.cxx: UpstreamDensityFeedback::transform", "src/temperature_feedback.cxx: TemperatureFeedback::transform"]}
{"id": "C35", "title": "Restarting continues the controllers", "statement": "Stopping at any point and restarting from the saved variables gives the same control signals afterwards as the uninterrupted run, for every controller in the model.", "quantifier": "every stopping point, every number of controllers, every later history", "why_tests_cant": "All stop points and all numbers of instances.", "anchors": ["src/detachment_controller.cxx: restartVars", "include/upstream_density_feedback.hxx: restartVars", "include/temperature_feedback.hxx: restartVars", "src/electromagnetic.cxx: restartVars"]}
{"id": "C36", "title": "Sheath extrapolation never goes negative or grows", "statement": "The boundary extrapolation used at sheaths gives a guard-cell value between zero and the last cell value for every non-negative input pair, so density, temperature and pressure at the sheath stay positive and never increase outward.", "quantifier": "every pair of real values", "why_tests_cant": "Real inputs; piecewise rule.", "anchors": ["src/sheath_boundary.cxx: limitFree", "src/sheath_boundary_simple.cxx: limitFree", "src/sheath_boundary_insulating.cxx: limitFree"]}
{"id": "C37", "title": "The sheath carries no net current when the potential is computed by the sheath component", "statement": "When no potential is given, the simple sheath chooses the potential such that electron flux equals total ion charge flux into the wall at every boundary cell.", "quantifier": "every number of ion species with any charges, densities, temperatures and velocities", "why_tests_cant": "Any number of ion species, real values.", "anchors": ["src/sheath_boundary_simple.cxx: SheathBoundarySimple::transform", "src/sheath_boundary.cxx: SheathBoundary::transform"]}
{"id": "C38", "title": "The insulating sheath draws no current", "statement": "With the insulating sheath the electron flux into the wall equals the ion charge flux for every mix of ions, and ions still flow to the wall at least at the sound speed.", "quantifier": "every number of ion species, charges, densities", "why_tests_cant": "Any number of ion species.", "anchors": ["src/sheath_boundary_insulating.cxx: SheathBoundaryInsulating::transform"]}
{"id": "C39", "title": "Sheath heat fluxes cool the plasma with the stated transmission factor", "statement": "The heat removed at the sheath makes the total energy flux equal to gamma n T v for the configured (or computed) transmission coefficient, and the sheath never heats the plasma.", "quantifier": "every state and every transmission coefficient", "why_tests_cant": "Real values.", "anchors": ["src/sheath_boundary_simple.cxx", "src/sheath_boundary.cxx", "src/sheath_boundary_insulating.cxx"]}
{"id": "C40", "title": "Upper and lower sheath treat mirrored plasmas equally", "statement": "Mirroring a plasma (swap ends, reverse velocities) swaps the lower and upper sheath results exactly.", "quantifier": "every boundary state", "why_tests_cant": "Two separately written code blocks must agree on every input.", "anchors": ["src/sheath_boundary.cxx", "src/sheath_boundary_simple.cxx", "src/sheath_boundary_insulating.cxx"]}
{"id": "C41", "title": "No-flow boundaries pass nothing", "statement": "With the no-flow boundary the advected particle, momentum and energy flux through the boundary face is zero and scalar quantities have zero gradient there.", "quantifier": "every state, either end or both", "why_tests_cant": "Interaction of two components for every state.", "anchors": ["src/noflow_boundary.cxx: NoFlowBoundary::transform", "include/div_ops.hxx: FV::Div_par_mod"]}
{"id": "C42", "title": "Neutral wall boundaries lose no particles and account for the wall heat", "statement": "Neutral boundaries have zero particle flux at walls; the heat lost is the incident thermal power minus the reflected fast and thermal (Franck-Condon) parts, is non-negative whenever the neutrals are hotter than the re-emission energy allows, and is removed from the last cell only.", "quantifier": "every neutral state and reflection setting within range", "why_tests_cant": "Real inputs.", "anchors": ["src/neutral_boundary.cxx: NeutralBoundary::transform"]}
{"id": "C43", "title": "Recycling returns at most what arrives", "statement": "Neutrals created by recycling at targets are between zero and the ion flow into the wall, equal to multiplier times that flow; with multiplier 1 and no pumping the neutrals gained equal the ions lost by parallel transport.", "quantifier": "every number of boundary cells, every state, every multiplier in [0,1]", "why_tests_cant": "Every state and geometry; involves two components.", "anchors": ["src/recycling.cxx: Recycling::transform", "include/div_ops.hxx: FV::Div_par_mod"]}
{"id": "C44", "title": "Recycling settings apply to the species they were given for", "statement": "Recycling options given in one species' section affect only that species: each species recycles on exactly the walls enabled in its own section.", "quantifier": "every number of recycling species and combination of switches", "why_tests_cant": "Any number of species.", "anchors": ["src/recycling.cxx: Recycling::Recycling, Recycling::transform"]}
{"id": "C45", "title": "Temperature, pressure and density passed on are consistent and non-negative", "statement": "Evolving pressure (or energy) equations hand on density, temperature and pressure that are non-negative and satisfy P = N T, and evolved values within bounds are passed on unchanged.", "quantifier": "every evolved value including negative ones", "why_tests_cant": "Solver iterates can be any real numbers.", "anchors": ["src/evolve_density.cxx: EvolveDensity::transform", "src/evolve_pressure.cxx: EvolvePressure::transform", "src/evolve_energy.cxx: EvolveEnergy::transform", "src/evolve_momentum.cxx: EvolveMomentum::transform"]}
{"id": "C46", "title": "Heat flux limiters bound the flux", "statement": "With a flux limiter alpha the conducted heat flux never exceeds alpha times the free-streaming flux, tends to the collisional value when that is small, and never changes sign; same for the viscosity limiters.", "quantifier": "every density, temperature, gradient and limiter > 0", "why_tests_cant": "Real inputs.", "anchors": ["src/evolve_pressure.cxx: kappa_limit_alpha", "src/evolve_energy.cxx", "src/ion_viscosity.cxx: eta_limit_alpha", "src/electron_viscosity.cxx"]}
{"id": "C47", "title": "Energy and pressure describe the same plasma", "statement": "Converting pressure, density and velocity to total energy and back returns the same pressure; the energy equation's source terms match pressure source plus work done.", "quantifier": "every positive state", "why_tests_cant": "Real inputs.", "anchors": ["src/evolve_energy.cxx: EvolveEnergy::transform, finally"]}
{"id": "C48", "title": "Quasineutrality", "statement": "The quasineutral component sets a density such that the total charge density vanishes at every point whenever that density is non-negative, and otherwise sets zero; it never sets a negative density.", "quantifier": "every number of species and charges", "why_tests_cant": "Any number of species.", "anchors": ["src/quasineutral.cxx: Quasineutral::transform"]}
{"id": "C49", "title": "Zero current", "statement": "The zero-current component sets the electron velocity such that the total parallel current vanishes wherever the electron density is above the floor.", "quantifier": "every number of species, charges, velocities", "why_tests_cant": "Any number of species.", "anchors": ["src/zero_current.cxx: ZeroCurrent::transform"]}
{"id": "C50", "title": "Electron force balance transfers the full electron pressure force to the ions", "statement": "With quasineutral ions, the sum of forces applied to ions by the computed electric field equals minus the electron pressure gradient plus the collisional force on electrons.", "quantifier": "every number of ion species", "why_tests_cant": "Any number of species.", "anchors": ["src/electron_force_balance.cxx: ElectronForceBalance::transform"]}
{"id": "C51", "title": "Fixed-fraction impurities", "statement": "Each listed impurity has its fraction of the electron density; the list is accepted exactly when each entry has the form species@fraction; every listed species is set.", "quantifier": "every option string and electron density", "why_tests_cant": "Infinite input grammar.", "anchors": ["src/fixed_fraction_ions.cxx"]}
{"id": "C52", "title": "Sound speed and fastest wave", "statement": "The sound speed is the square root of total pressure over total mass density and the fastest wave is at least it and at least each species' thermal speed, in every cell.", "quantifier": "every number of species", "why_tests_cant": "Any number of species.", "anchors": ["src/sound_speed.cxx: SoundSpeed::transform"]}
{"id": "C53", "title": "Classical diffusion is ambipolar", "statement": "Classical cross-field diffusion applied to a quasineutral plasma creates no net charge and leaves neutrals alone.", "quantifier": "every number of species and any profiles", "why_tests_cant": "Any number of species, any profiles.", "anchors": ["src/classical_diffusion.cxx: ClassicalDiffusion::transform"]}
{"id": "C54", "title": "Normalising the metric keeps it a metric", "statement": "After normalisation the contravariant and covariant metrics are still inverse to each other, the Jacobian is still the inverse root of the metric determinant, and physical lengths, areas and volumes in metres are recovered by multiplying by powers of the length unit; normalisation is scale-consistent for every choice of units.", "quantifier": "every metric and every positive normalisation", "why_tests_cant": "Real identities with six independent components.", "anchors": ["hermes-3.cxx: Hermes::init"]}
{"id": "C55", "title": "The recalculated metric is a consistent field-aligned metric", "statement": "The metric recalculated from the equilibrium (R, Bp, Bt, hthe, shear) has inverse covariant components and Jacobian consistent with it whenever |B|^2 = Bp^2 + Bt^2, for either sign of the poloidal field, and equals the normalised metric which the grid file would have given.", "quantifier": "every equilibrium value", "why_tests_cant": "Real identities.", "anchors": ["src/recalculate_metric.cxx: recalculate_metric", "hermes-3.cxx: Hermes::init"]}
{"id": "C56", "title": "Fixed-fraction radiation only cools", "statement": "The radiated power is non-negative for every electron density and temperature and is removed from the electrons; it is zero for unphysical (negative) inputs and in the core when told so.", "quantifier": "every density, temperature, fraction and every cooling curve", "why_tests_cant": "Piecewise curves over all reals.", "anchors": ["include/fixed_fraction_radiation.hxx"]}
{"id": "C57", "title": "Timestep scaling only slows down", "statement": "The factor multiplying time derivatives lies in (0,1] in every cell, equals 1 in the cell with the largest time scale, and steady states are unchanged.", "quantifier": "every grid size and state", "why_tests_cant": "Any number of cells.", "anchors": ["include/scale_timederivs.hxx: ScaleTimeDerivs::transform"]}
{"id": "C58", "title": "Potential boundary relaxation is well behaved for any step size", "statement": "The relaxed boundary potential always lies between the old boundary value and the interior value; taking one step of t1+t2 gives the same as t1 followed by t2; a boundary already equal to the interior stays there; the average used in the core region is the average.", "quantifier": "every time step, relaxation time and values", "why_tests_cant": "All real step sizes and sequences of steps.", "anchors": ["src/vorticity.cxx: Vorticity::transform (phi_boundary_relax)"]}
{"id": "C59", "title": "Boundary conditions set the face value they promise", "statement": "The decaying-length boundary gives guard values that decay exponentially with distance and keep the sign; the Z-averaged Neumann boundary makes the boundary face value the Z average; both leave the domain unchanged.", "quantifier": "every field, grid and decay length", "why_tests_cant": "Every grid size.", "anchors": ["hermes-3.cxx: DecayLengthBoundary", "src/evolve_density.cxx: neumann_boundary_average_z"]}
{"id": "C60", "title": "Averages over a cell are exact for linear data", "statement": "The cell-average used for nonlinear rates is a weighted mean with weights summing to one, reproduces constants and (on a uniform grid) linear functions, and lies within the range of the sampled values.", "quantifier": "every function, every cell values and Jacobians", "why_tests_cant": "Real inputs, arbitrary functions.", "anchors": ["include/integrate.hxx: cellAverage"]}
{"id": "C61", "title": "Neutral diffusion wall and limiter settings keep fluxes bounded", "statement": "The neutral diffusion coefficient is bounded by the configured limit and by the free-streaming flux limit, wall densities are never negative and the diffusive flux through target walls vanishes.", "quantifier": "every neutral state", "why_tests_cant": "Real inputs.", "anchors": ["src/neutral_mixed.cxx: NeutralMixed::transform, finally"]}
{"id": "C62", "title": "Electromagnetic momentum correction is consistent", "statement": "Converting evolved canonical momentum to velocity with the vector potential gives a velocity consistent with momentum (NV = A N V above the floor) for every charged species and leaves neutral species unchanged.", "quantifier": "every number of species and any potential", "why_tests_cant": "Any number of species.", "anchors": ["src/electromagnetic.cxx: Electromagnetic::transform"]}
{"id": "C63", "title": "Viscosity conserves energy", "statement": "The kinetic energy removed by ion parallel viscosity appears as heat of the same species, and the viscous stress never exceeds the pressure when bounded.", "quantifier": "every state", "why_tests_cant": "Real inputs.", "anchors": ["src/ion_viscosity.cxx: IonViscosity::transform"]}
{"id": "C64", "title": "Diagnosed flows and units are right", "statement": "Values written to output convert to SI with the published conversion factor: pressure = e T n, momentum = m_p n c_s, flows = value times rho_s^3 n Omega; derived normalisations satisfy c_s = rho_s Omega_ci and the unit table is consistent, and energy flow diagnostics carry the factor 5/2 (advection) and 3/2 (diffusion).", "quantifier": "every choice of Nnorm, Tnorm, Bnorm", "why_tests_cant": "Real inputs, cross-component agreement.", "anchors": ["hermes-3.cxx: Hermes::init", "src/neutral_mixed.cxx: finally", "src/evolve_*.cxx: outputVars"]}
{"id": "C65", "title": "Simple pumps and closures only remove what they should", "statement": "The pump removes density in proportion to the density where its shape function is non-zero and never adds particles; the sheath closure adds the same charge to the electrons as it takes from the vorticity current.", "quantifier": "every state", "why_tests_cant": "Real inputs.", "anchors": ["include/simple_pump.hxx", "src/sheath_closure.cxx"]}
{"id": "C66", "title": "Index-space perpendicular and Z diffusion conserve", "statement": "The index-space perpendicular Laplacian, the Z diffusion and the Z hyper-diffusion conserve the integral (up to the radial boundary fluxes, which vanish if xflux is false), vanish on constants, dissipate, and diffuse equally in X and Z.", "quantifier": "every field, every number of points, every metric", "why_tests_cant": "Unbounded grid sizes and real inputs.", "anchors": ["src/div_ops.cxx: Div_Perp_Lap_FV_Index, Div_Z_FV_Index, D4DZ4_Index"]}
{"id": "C67", "title": "The X-Y Laplacian is in flux form", "statement": "Laplace_FV integrates to boundary flows only, for every coefficient field, and vanishes on constants.", "quantifier": "every field, coefficient and grid size", "why_tests_cant": "Unbounded grid sizes and real inputs.", "anchors": ["src/div_ops.cxx: Laplace_FV"]}
{"id": "C68", "title": "Transport never takes particles from an empty cell", "statement": "In a cell with no density, with no negative density anywhere, the advection operators (parallel, ExB in X-Z and poloidally) and the limited diffusion never produce a net outflow.", "quantifier": "every non-negative density profile, every flow and every grid size", "why_tests_cant": "Depends on the sign of every face flux for arbitrary neighbouring values and limiter branches.", "anchors": ["src/div_ops.cxx: Div_n_bxGrad_f_B_XPPM", "include/div_ops.hxx: Div_par_mod, Div_a_Grad_perp_limit"]}
{"id": "C69", "title": "Recycled neutrals carry between zero and the ions' energy", "statement": "The energy source given to recycled neutrals at the targets is non-negative and at most the energy the ions bring, for fractions, energy factors and multipliers within [0,1].", "quantifier": "every state, either direction of flow, every setting in range", "why_tests_cant": "Tests use a few outflowing states; flow reversal near a target happens only in some transients.", "anchors": ["src/recycling.cxx"]}
{"id": "C70", "title": "Diffusion at low density acts only at low density", "statement": "The coefficient of the extra parallel diffusion at low density is non-negative, exactly zero at or above the density floor, and bounded however small or negative the density is.", "quantifier": "every density, floor > 0 and metric", "why_tests_cant": "Real inputs, including negative densities that occur only in solver iterates.", "anchors": ["src/evolve_density.cxx: low_n_diffuse", "src/evolve_pressure.cxx: low_n_diffuse", "src/evolve_energy.cxx: low_n_diffuse", "src/evolve_momentum.cxx: low_n_diffuse"]}
{"id": "C71", "title": "Cooling curves join up at the ends of their fits", "statement": "At each end of the temperature range of a fitted cooling curve the fit agrees (within 5%) with the constant used beyond it, and the simplified curves are continuous.", "quantifier": "every fitted element, both ends", "why_tests_cant": "The fits are polynomials of up to degree 20 in log T; the ends lie outside the temperatures of any test case, and no test reads the curves there.", "anchors": ["include/fixed_fraction_radiation.hxx: *_adas::curve, Argon_simplified*::curve"]}
{"id": "C72", "title": "Legacy ionisation and SOL-KiT charge exchange conserve", "statement": "The legacy ionisation component moves particles, momentum and energy from atoms to ions without loss other than the ionisation energy; SOL-KiT charge exchange friction conserves momentum, opposes the relative motion and gives the lost kinetic energy to heat.", "quantifier": "every state, every limiter", "why_tests_cant": "Balance over all real states.", "anchors": ["src/ionisation.cxx: Ionisation::transform", "src/radiation.cxx: UpdatedRadiatedPower::ionisation", "src/solkit_hydrogen_charge_exchange.cxx: calculate_rates"]}
{"id": "C73", "title": "Potential set from the temperature gives zero sheath current", "statement": "When the radial boundary of the potential is set from the electron temperature ('to be consistent with j=0 at sheath'), the potential is that at which ion and electron currents into a sheath are equal, on the face, for every ion species.", "quantifier": "every temperature, density and ion mass", "why_tests_cant": "Real inputs; the tests only run hydrogen-like cases and do not look at the boundary.", "anchors": ["src/vorticity.cxx: Vorticity::transform (phi_boundary_relax = false)"]}
{"id": "C74", "title": "Vector potential boundary relaxation depends on elapsed time only", "statement": "With const_gradient the gradient of Apar at the radial boundary stays between its previous value and that in the domain, and depends only on the time reached, not on how many evaluations were made.", "quantifier": "every sequence of evaluation times", "why_tests_cant": "An implicit integrator evaluates at trial times that tests do not control.", "anchors": ["src/electromagnetic.cxx: Electromagnetic::transform (const_gradient)"]}
{"id": "C75", "title": "Neutral time derivatives do not depend on earlier evaluations", "statement": "The time derivatives of the neutral density, pressure and momentum in the domain depend only on the evolving variables in the domain, not on values earlier evaluations (or the initial condition) left in guard cells beyond the walls.", "quantifier": "every line, every content of the guard cells", "why_tests_cant": "A test compares results of a fixed sequence of evaluations; it cannot vary what is left in guard cells.", "anchors": ["src/neutral_mixed.cxx: NeutralMixed::transform, finally"]}
{"id": "C76", "title": "Diamagnetic drift of the species", "statement": "The diamagnetic drift moves only species with a charge and a temperature; with uniform temperature and flow it carries 5/2 T and the mean momentum with every particle in any mixture of its two forms; in the gradient form the species together carry the diamagnetic current of the total pressure; nothing drifts through the sheath, as the constructor's comment says.", "quantifier": "every set of species, linear operator, curvature and temperature profile", "why_tests_cant": "Tests use one or two species, a single form and flat profiles at the sheath.", "anchors": ["src/diamagnetic_drift.cxx: DiamagneticDrift::DiamagneticDrift, transform"]}
{"id": "C77", "title": "Polarisation drift keeps the plasma neutral", "statement": "The density sources of the polarisation drift, weighted with charge and summed over species, equal the divergence of all other currents, so that together the plasma stays neutral; the component is defined whenever its inputs are; energy and momentum follow the particles.", "quantifier": "every set of species, mass densities above the floor, currents, linear operators with an exact solver", "why_tests_cant": "Neutrality is a cancellation between species, an inversion and a sum of currents; a test sees one set of species and discretisation error.", "anchors": ["src/polarisation_drift.cxx: PolarisationDrift::transform"]}
{"id": "C78", "title": "Energy exchange with the diamagnetic current balances", "statement": "The energy which Vorticity takes from the species as -P Curlb_B.Grad(phi) is what the divergence of the diamagnetic current gives to the potential: the sum over a line differs only by the flow of energy through its ends, and vanishes on a closed line.", "quantifier": "every metric, curvature, spacing, potential, set of species and length of the line", "why_tests_cant": "A test would need an energy budget to round-off on one configuration; the identity is a discrete integration by parts for all of them.", "anchors": ["src/vorticity.cxx: Vorticity::transform (diamagnetic)"]}
{"id": "C79", "title": "Relaxing potential agrees with the potential solver", "statement": "At rest RelaxPotential gives the potential which Vorticity solves for; only lambda_1/lambda_2 matters; the defaults satisfy the documented condition; both components exchange the same energy with the species.", "quantifier": "every set of species, pressures, bilinear operator and parameters", "why_tests_cant": "The relaxation is only compared with the solver by long runs; charges other than one are rarely used.", "anchors": ["src/relax_potential.cxx: RelaxPotential::RelaxPotential, transform, finally", "src/vorticity.cxx: Vorticity::transform (Pi_hat)", "src/polarisation_drift.cxx: PolarisationDrift::transform"]}
{"id": "C80", "title": "Friction and damping of vorticity", "statement": "The mass-weighted collision frequency lies within the range of the species' frequencies; dissipation at the sheath is the potential there if negative and zero otherwise; damping near the core removes only the mean in z, at rate 0.01.", "quantifier": "every set of species, potentials and number of points in z", "why_tests_cant": "Bounds of a weighted mean over any list of species; sign conditions at every boundary point.", "anchors": ["src/vorticity.cxx: Vorticity::transform (collisional_friction), finally (phi_sheath_dissipation, damp_core_vorticity)"]}
{"id": "C81", "title": "Anomalous diffusion moves particles, momentum and energy consistently", "statement": "Cross-field diffusion does not depend on z, carries 3/2 T and the momentum of each particle, crosses only the radial edges when sheath fluxes are off, makes no new maximum of the temperature, and conserves energy.", "quantifier": "every mesh, metric, profile of coefficients and z-dependent density, temperature and velocity, every change of coordinates which leaves axisymmetric fields alone", "why_tests_cant": "Totals over the whole mesh and sign conditions at every cell, for any profile; tests compare a few manufactured solutions.", "anchors": ["src/anomalous_diffusion.cxx: AnomalousDiffusion::AnomalousDiffusion, transform", "src/div_ops.cxx: Div_a_Grad_perp_upwind_flows"]}
{"id": "C82", "title": "Parallel diffusion of neutrals goes down the pressure gradient and conserves", "statement": "Neutrals flow from high to low pressure, none through closed ends; nothing moves at uniform pressure; particles carry 5/2 T and their momentum; energy only changes by conduction through the ends; the viscosity is 2/5 m kappa, viscous work becomes heat, and the switches work.", "quantifier": "every line of cells, metric, density, temperature, velocity, collision frequency, mass and set of options", "why_tests_cant": "Signs of fluxes for any profile and metric; a misspelt option is never noticed by a test which uses the default.", "anchors": ["src/neutral_parallel_diffusion.cxx: NeutralParallelDiffusion::transform", "include/neutral_parallel_diffusion.hxx: NeutralParallelDiffusion::NeutralParallelDiffusion"]}
{"id": "C83", "title": "SOL-KiT neutral diffusion has the right coefficient", "statement": "The normalised coefficient is the thermal speed over twice the inverse mean free path summed over all species, whatever their order and the normalisation; atoms flow down their density gradient, none through closed ends.", "quantifier": "every list of species, normalisation, temperature and mass; every line of cells", "why_tests_cant": "Normalisation enters through several constructors; lists of species of any length and order.", "anchors": ["src/solkit_neutral_parallel_diffusion.cxx: SOLKITNeutralParallelDiffusion::transform", "include/solkit_neutral_parallel_diffusion.hxx: SOLKITNeutralParallelDiffusion::SOLKITNeutralParallelDiffusion"]}
{"id": "C84", "title": "Simple conduction is Braginskii's and goes from hot to cold", "statement": "The normalised coefficient equals 3.16 (3.9) n T tau / m with Braginskii's collision time in SI units; heat flows from hot to cold between cells and not through closed ends.", "quantifier": "every normalisation, mass, density and temperature; every line of cells and metric", "why_tests_cant": "An equation between real functions of seven normalisations and constants; the sign of the Coulomb logarithm in cold cells.", "anchors": ["include/simple_conduction.hxx: SimpleConduction::SimpleConduction, transform"]}
{"id": "C85", "title": "The stellarator two point model conserves and is as documented", "statement": "The added terms are those documented, conserve particles, momentum and energy between closed ends, and leave a uniform temperature uniform.", "quantifier": "every line of cells, metric, pitch, coefficients and profiles", "why_tests_cant": "Totals over any profile of the pitch; input decks use a constant pitch.", "anchors": ["src/binormal_stpm.cxx: BinormalSTPM::BinormalSTPM, transform", "docs/sphinx/components.rst: binormal_stpm"]}
{"id": "C86", "title": "Prescribed density, temperature and velocity give a consistent species", "statement": "isothermal, fixed_temperature, set_temperature, fixed_density and fixed_velocity set pressure = density * temperature and momentum = mass * density * velocity of the values in the state, in SI units after normalisation; a density changed afterwards is refused, and only the documented entries change.", "quantifier": "every state with any entries and read marks, every species name, value and normalisation", "why_tests_cant": "Order and presence of entries: 2^n states of values and marks; tests run one order.", "anchors": ["src/isothermal.cxx: Isothermal::Isothermal, transform", "include/fixed_density.hxx: FixedDensity::transform", "include/fixed_temperature.hxx: FixedTemperature::transform", "include/fixed_velocity.hxx: FixedVelocity::transform", "include/set_temperature.hxx: SetTemperature::transform"]}
{"id": "C87", "title": "Registered reactions do what their names say", "statement": "Each of the 115 registered names is a formula conserving charge and nuclei, no name is registered twice, and the component run for it changes particle sources in the proportions of the formula; all charge states of carbon, lithium and neon are covered; reversed reactions have opposite heating; the tables read are shipped and their axes give a defined positive rate everywhere.", "quantifier": "every registered reaction, state, normalisation and table value; every temperature and density in the lookup", "why_tests_cant": "115 names, each with class, template arguments and data file; a wrong level or species in one line only shows in a run with that reaction.", "anchors": ["include/adas_carbon.hxx: RegisterComponent", "include/adas_lithium.hxx: RegisterComponent", "include/adas_neon.hxx: RegisterComponent", "include/amjuel_hyd_ionisation.hxx: RegisterComponent", "include/amjuel_hyd_recombination.hxx: RegisterComponent", "include/hydrogen_charge_exchange.hxx: RegisterComponent", "json_database"]}
{"id": "C88", "title": "Collision frequencies follow the Coulomb formula and the NRL logarithm", "statement": "Each collision frequency computed between two charged species is the SI Coulomb collision frequency with a Coulomb logarithm which, outside the clipped ranges, is that of the NRL formulary; its branches join continuously; collisions with neutrals are those of hard spheres at the relative thermal speed and are reciprocal (n1 A1 nu12 = n2 A2 nu21); the friction coefficients are Braginskii's table.", "quantifier": "all densities, temperatures, masses and charges (positive where a root or logarithm is taken)", "why_tests_cant": "A wrong prefactor or exponent changes all transport slightly and smoothly; tests compare with the same formula.", "anchors": ["src/collisions.cxx: Collisions::transform", "src/collisions.cxx: Collisions::collide"]}
{"id": "C89", "title": "The controllers are PI and PID controllers", "statement": "Over every history the detachment controller's integral is the trapezium rule over the samples used (from the first change of sign if the reset is wanted), its crossings are the changes of sign, its output the position or velocity form of a PID controller within the limits; the upstream density and temperature controllers look at one cell and never answer a larger deficit there with less source.", "quantifier": "all histories of samples, all settings; all profiles", "why_tests_cant": "Control is judged over long simulations; a wrong integral or a crossing not counted only changes how quickly the front settles.", "anchors": ["src/detachment_controller.cxx: DetachmentController::transform", "include/detachment_controller.hxx: restartVars", "src/upstream_density_feedback.cxx: UpstreamDensityFeedback::transform", "src/temperature_feedback.cxx: TemperatureFeedback::transform"]}
{"id": "C90", "title": "The equations of density, momentum, pressure and energy fit together", "statement": "For smooth profiles the change of the energy 3/2 P + A N V^2/2 implied by the equations of pressure (both forms), density and momentum is the equation of energy; the electric force vanishes in the sum over a quasi-neutral plasma; on a closed line particles and energy change only by their sources.", "quantifier": "all profiles, masses, charges and sources; every limiter, grid and conduction", "why_tests_cant": "The components are used separately (pressure or energy evolved) and tested separately; a wrong sign or factor in one shows only in their sum.", "anchors": ["src/evolve_density.cxx: EvolveDensity::finally", "src/evolve_momentum.cxx: EvolveMomentum::finally", "src/evolve_pressure.cxx: EvolvePressure::finally", "src/evolve_energy.cxx: EvolveEnergy::finally"]}
{"id": "C91", "title": "Rate coefficients of hydrogen behave as their physics demands", "statement": "At every temperature and density the electrons lose at least 13.6 eV with each ionisation of hydrogen by the AMJUEL fits of the code, as coefficients and in the reaction as a whole. Ionisation becomes faster with temperature up to 90 eV and slower from 115 eV. Recombination becomes slower with temperature and, below 7.4 eV, faster with density.", "quantifier": "every temperature and density (real numbers; values outside the range of the fits are clipped), every cell and state of the reaction", "why_tests_cant": "The fits are polynomials of degree 16 in two real variables with 81 coefficients; a test evaluates them at a few points, and a wrong digit in one coefficient may change them elsewhere.", "anchors": ["src/amjuel_hyd_ionisation.cxx: rate_coefs, radiation_coefs", "src/amjuel_hyd_recombination.cxx: rate_coefs", "include/amjuel_reaction.hxx: AmjuelReaction::evaluate, electron_reaction"]}
{"id": "C92", "title": "Rate coefficients of helium, charge exchange and the legacy ionisation behave as their physics demands", "statement": "At every temperature and density the electrons lose at least 24.586 eV with each ionisation of helium; ionisation of helium becomes faster with temperature up to its maximum; recombination of helium and charge exchange of hydrogen depend monotonically on temperature; and the two components which ionise hydrogen agree at low density.", "quantifier": "every temperature and density (real numbers)", "why_tests_cant": "The fits are polynomials of high degree in one or two real variables; a test evaluates them at a few points.", "anchors": ["src/amjuel_helium.cxx: rate_coefs, radiation_coefs", "src/hydrogen_charge_exchange.cxx: calculate_rates", "src/radiation.cxx: UpdatedRadiatedPower::ionisation"]}
{"id": "C93", "title": "Neutral gas with full velocity: coordinates, boundaries, energy and sources", "statement": "On every regular grid the transformation between the velocity components of the mesh and cylindrical ones is invertible and has the lengths of the tokamak coordinates, whatever the division of the mesh among processors; outflow boundaries let gas out but not in; the published fields are consistent; in cylindrical components velocity changes by pressure gradient, advection and viscosity; pressure work conserves energy; targets take gamma n T c_s times their area from the last cell; and sources of particles, momentum and energy change the density, momentum and energy by just those amounts.", "quantifier": "every geometry, every division among processors, every field, every source (real numbers)", "why_tests_cant": "Grids are arbitrary functions of two indices and the errors show only with more than one processor, below the floors, or with particle and momentum sources together.", "anchors": ["src/full_velocity.cxx: constructor 40-155, transform, finally", "include/full_velocity.hxx"]}
{"id": "C94", "title": "SNB heat conduction keeps the mesh and conserves units", "statement": "transform evaluates the heat flux with distance in metres, temperature in eV and density in m^-3, subtracts its normalised divergence from the electron energy source, outputs it in W/m^3, and leaves the mesh as it was, also if the heat flux throws.", "quantifier": "every normalisation, field and heat flux function, including ones which throw", "why_tests_cant": "The heat flux is a function of BOUT++, any outcome of which must be covered; tests use one normalisation.", "anchors": ["src/snb_conduction.cxx: transform, outputVars"]}
{"id": "C95", "title": "Preconditioners are implicit steps of the diffusion they stand for", "statement": "A preconditioner which is switched off changes nothing. The preconditioners of evolve_pressure, evolve_energy and neutral_mixed replace the time derivative of the evolving variable by the solution of one implicit step of the diffusive term of that equation; the linear equation has at most one solution, bounded by its right hand side; the whole preconditioner is linear.", "quantifier": "every field, conductivity, scaling, gamma and list of components (real numbers); every solver of the stated equation", "why_tests_cant": "A wrong preconditioner changes only the number of iterations of the time solver, not the result, so tests of results cannot see it.", "anchors": ["src/evolve_pressure.cxx: precon 576-601", "src/evolve_energy.cxx: precon 500-525", "src/neutral_mixed.cxx: precon 786-808", "src/component_scheduler.cxx: precon", "hermes-3.cxx: precon"]}
{"id": "C96", "title": "Vorticity equation: potential, advection, currents and dissipation", "statement": "The potential inverts the definition of vorticity, with and without the split of the axisymmetric part; outer guard cells continue the first one; without ion pressure the full advection is the simplified one; finally throws exactly when a charged moving species lacks mass or density or a needed sound speed is missing; parallel currents enter as the divergence of the total current in any order; in a closed domain the total vorticity changes only by what was there before; the dissipation terms never increase enstrophy or energy; the relaxing potential relaxes to the vorticity of the total mass density.", "quantifier": "every field, list of species, set of options, linear operator and solver (real numbers)", "why_tests_cant": "Signs and factors of conservative and dissipative terms show as slow drifts of integrals, over combinations of options which tests do not run.", "anchors": ["src/vorticity.cxx: transform 410-482, finally", "src/relax_potential.cxx: finally"]}
{"id": "C97", "title": "The parabolic interpolation makes no new extrema where the data are monotone", "statement": "XPPM, the piecewise parabolic interpolation to cell faces: for monotone data both face values lie between the neighbouring cell values; at the limited extrema the faces stay within what its rule allows; linear data and, where no limiter acts, cubic data are reproduced exactly; neighbouring cells share the face value away from extrema; the result commutes with mirroring, negating and shifting the data, and with a change of units.", "quantifier": "for all cell values and cell widths", "why_tests_cant": "Limiter branches depend on signs and orderings of five real values; a test samples a few of the orderings and cannot show exactness or monotonicity for all.", "anchors": ["src/div_ops.cxx:73-78", "src/div_ops.cxx:134-213"]}
{"id": "C98", "title": "Sources, initial values and the metric are what the input asks for", "statement": "Hermes::init stops exactly if the renamed option is given or no metric component is available; in SI units each external source is the value in the input file, else that in the grid file, times the given function of time in seconds, and zero outside of the core if so wished; the same grid file heats a species equally whether pressure or energy is evolved; a logarithmic variable starts from the given profile; floors are the documented ones.", "quantifier": "for all grid files, settings, profiles, reference values, cells and times", "why_tests_cant": "The combinations of present and absent settings and the unit conversions are not covered by tests, which use one set of reference values.", "anchors": ["hermes-3.cxx:212-269", "src/evolve_density.cxx:40-125", "src/evolve_pressure.cxx:32-145", "src/evolve_energy.cxx:23-114", "src/neutral_mixed.cxx:109-129"]}
{"id": "C99", "title": "Limiters, transport and sources in double precision", "statement": "With a rounding after every operation (binary64, round to nearest even, shown to obey the laws which are used): face values of MinMod and MC are never negative for data which are not, exact in an empty cell and for a constant, and make new extrema of at most four units in the last place; Div_par_mod takes nothing from an empty cell; a sum of sources differs from the exact one by the usual bound whatever the order; friction between two species conserves momentum to the last bit.", "quantifier": "for all doubles in every cell, meshes, velocities, lists of sources, and for every rounding which obeys the laws", "why_tests_cant": "Effects of rounding appear for rare combinations of magnitudes; a test with smooth data does not meet them.", "anchors": ["src/div_ops.cxx:99-132", "include/div_ops.hxx:502-690", "include/component.hxx:281-314", "src/collisions.cxx:105-109"]}
{"id": "C100", "title": "Nuclei on a whole field line", "statement": "Reactions at every cell, recycling at both targets and parallel transport put together: the number of nuclei (or charge, or any weight the reaction equations keep) changes by the external sources, less what leaves through the ends, plus what the targets return; with every outflowing species recycled, only the part 1 - multiplier of the outflow is lost, and nothing if it is 1, whatever the reactions, their number, order and rates.", "quantifier": "for all lists of reactions in every cell, states, meshes with uniform dx and dz, limiters, wave speeds, lists of channels, species lists and weights; also for negative evolved densities", "why_tests_cant": "Conservation is a statement about the composition of five components and two finite volume operators; tests check each of them alone, on small meshes.", "anchors": ["src/component_scheduler.cxx:50-61", "src/evolve_density.cxx:211-288", "src/recycling.cxx:159-280", "include/amjuel_reaction.hxx:67-170", "src/adas_reaction.cxx:126-250", "src/hydrogen_charge_exchange.cxx:3-102", "include/div_ops.hxx:502-690"]}
{"id": "C101", "title": "Momentum and energy with collisions, thermal force and reactions together", "statement": "Run one after the other on the same state, in any number and order, collisions, the thermal force and reactions leave the total momentum source of all species alone; and collisions (with frictional heating), hydrogen charge exchange and the AMJUEL reactions change the total thermal and kinetic energy by exactly the sum of what each reaction radiates and releases, as given by its fits; with EvolveEnergy as well.", "quantifier": "for all lists of such components with their settings and tables, all species lists and all states on which they finish", "why_tests_cant": "Each component is tested alone; that energy is accounted for when they are combined, and for every equation which uses the sources, is not tested.", "anchors": ["src/component_scheduler.cxx:50-61", "src/collisions.cxx:71-152", "src/thermal_force.cxx:6-125", "include/amjuel_reaction.hxx:67-170", "src/hydrogen_charge_exchange.cxx:3-102", "src/evolve_energy.cxx:355-370"]}
{"id": "C102", "title": "Shipped inputs construct and evaluate", "statement": "Every input file shipped with the code (examples and integrated tests) builds its list of components, and an evaluation of the right-hand side goes through: no component misses something it needs, writes to something which has been read as final, or reads a field as a number. No component silently replaces what another one has set, and none leaves out a profile only because the component which provides it comes later.", "quantifier": "for all 64 input files, all finite fields which components may compute, all times and units", "why_tests_cant": "The examples are not run by the test suite, most need grids or hours of computing; and a value which is replaced or overlooked silently gives no error.", "anchors": ["examples/*/BOUT.inp", "tests/integrated/*/BOUT.inp", "src/component_scheduler.cxx:5-60", "hermes-3.cxx:292-303"]}
{"id": "C103", "title": "What a component reads has been provided", "statement": "Every value a component obtains from the state is the last one written to that entry. A component changes only what is listed for its type, in the listed way, and nothing in finally. If an evaluation completes, everything a component must read comes from the start of the evaluation or from a component listed before it; what finally must read, from any component. A species without charge does not disturb components which act on charged species.", "quantifier": "for all lists of components, options, fields, states and evaluations, complete or ended by an exception", "why_tests_cant": "There are some hundred component types; the combinations and orders a user may choose cannot be enumerated.", "anchors": ["include/component.hxx:77-314", "src/component_scheduler.cxx:51-60", "src/*.cxx transform and finally", "src/electromagnetic.cxx:102-140"]}
{"id": "C104", "title": "Order of components", "statement": "The order of components does not matter in finally, and the order of species does not matter as far as their components use their own species only: an evaluation throws or not, ends with the same values, and every component reads the same. What a component has read as final is what the entry holds at the end of the evaluation; after such a read, or a query, nothing changes the entry any more, and after a read without boundaries only boundaries change. An order in which something is missed is reported.", "quantifier": "for all lists of components, options, fields and evaluations", "why_tests_cant": "Orders of components are permutations chosen by the user; tests fix one order.", "anchors": ["include/component.hxx:77-314", "src/component_scheduler.cxx:51-60", "src/transform.cxx", "src/quasineutral.cxx"]}
{"id": "C105", "title": "Interface of component types", "statement": "A component looks only at the entries listed for its type, in the listed way (final value, interior, current value, or a query); in finally it reads final values only. A transform which returns has looked at and has changed everything listed as always looked at and always changed. Consequently an order in which a component always changes what an earlier one always looks at as final does not evaluate.", "quantifier": "for all registered types, names, options, states, fields and lists of components", "why_tests_cant": "Tests look at the results of one component at a time; which entries are read, and whether as final, shows only in combination with others.", "anchors": ["include/component.hxx:77-314", "src/*.cxx transform and finally", "src/component_scheduler.cxx:51-60"]}
{"id": "C106", "title": "No species is left out", "statement": "Components which act on several species act on every species which has what they ask for: sheath components set the boundaries of all charged species and of those profiles which are present, collisions, drifts, viscosities, thermal forces and diffusion give their sources to each of them, and equations use every source which has been provided for their species.", "quantifier": "for all sets of species, all states, options and fields on which the component returns", "why_tests_cant": "Tests use one or two species; a species which is skipped, or a source which is not used, gives no error.", "anchors": ["src/sheath_boundary.cxx", "src/collisions.cxx", "src/diamagnetic_drift.cxx", "src/evolve_density.cxx:210-312", "src/evolve_pressure.cxx:221-455", "src/evolve_momentum.cxx:88-251", "src/evolve_energy.cxx:191-398", "src/neutral_mixed.cxx:262-505"]}
{"id": "C108", "title": "Omitted options", "statement": "Omitting an optional setting which decides about state accesses is the same as giving its default; omitting a required one means that no component is made.", "quantifier": "for all component types, names and options", "why_tests_cant": "A default which differs from the documented one gives no error.", "anchors": ["src/*.cxx constructors", "docs/sphinx/components.rst"]}
{"id": "C107", "title": "Optional entries are asked for before they are read", "statement": "A component reads an entry which is optional for its type only after it has seen that the entry is set: by a query, an earlier read or its own write. This includes calls which end in an exception.", "quantifier": "for all registered types, names, options, states and fields", "why_tests_cant": "A missing guard shows only in inputs without the entry.", "anchors": ["include/component.hxx:77-314", "src/*.cxx transform and finally"]}
