{
 "C01": [
  "proved",
  "Name rule is idempotent, length preserving, and identifies exactly the spellings equal up to letter case."
 ],
 "C02": [
  "proved",
  "Refinement of the parameter database to a map, by induction over every history of calls."
 ],
 "C03": [
  "proved",
  "add_* on an existing name aborts in every reachable database."
 ],
 "C04": [
  "proved",
  "Pseti/Pgeti round trip for every int, through any later calls on other names, and on any database."
 ],
 "C05": [
  "partial",
  "Numeric reads are current for every history in which no default is set on an existing empty parameter; for that case the code returns a stale number: C05_stale_after_set_default_refuted."
 ],
 "C06": [
  "proved",
  "free_parameter removes one entry, keeps the others with all attributes."
 ],
 "C07": [
  "proved",
  "n-th value, clamped at the last."
 ],
 "C08": [
  "partial",
  "The property is FALSE of the code: C08_single_multiplicity_one_refuted shows undefined behaviour for every v(x1) value. What does hold (v(x1) inside a list with other values) is part of C09."
 ],
 "C09": [
  "proved",
  "Expansion of a rendered item list equals the joined list of values; trailing arrow and (x0) abort."
 ],
 "C10": [
  "proved",
  "The loop makes at most length(s) rounds on every text."
 ],
 "C11": [
  "proved",
  "Total is the maximum number of values, or the user's total_iterations_ip."
 ],
 "C12": [
  "proved",
  "One call and the whole main loop."
 ],
 "C13": [
  "proved",
  "For every file up to the size limit whose cleaned text is name=value / blank lines. Files ending in a lossy way are C15; lines with a leading '=' are C17."
 ],
 "C14": [
  "proved",
  "Exact characterisation of the buffer for every file, including the lossy endings."
 ],
 "C15": [
  "partial",
  "True for files that end in an ordinary line; refuted otherwise (last character lost, UB for a single comment, refusal of newline+line): C15_last_line_lost_refuted."
 ],
 "C16": [
  "proved",
  "For every string without a leading separator; join/split round trip."
 ],
 "C17": [
  "partial",
  "True for a leading separator followed by two or more items; refuted for one item and for lines starting with '='."
 ],
 "C18": [
  "proved",
  "Whole-file round trip of header and parameters, bit for bit, for every storable database."
 ],
 "C19": [
  "proved",
  "Whole-file round trip of the fields; the selection regular expression is characterised as 'is one of the words of the list'."
 ],
 "C20": [
  "proved",
  "Every history of attempts with arbitrary crash points and mv failures; checkpoint.dat characterised exactly."
 ],
 "C21": [
  "partial",
  "Override semantics proved end to end (parameter file with modify: names, checkpoint database, reads after restart), array parameters abort; a NEW iterative parameter loses its later values: C21_new_iterative_refuted."
 ],
 "C22": [
  "partial",
  "Acceptance is exactly 'ends with the mark'; complete files accepted; cuts inside the final section rejected. Other cuts can read uninitialised memory: C22_uninitialised_refuted."
 ],
 "C24": [
  "proved",
  "Refinement of the field array to a map, over every history of add/remove/remove-by-pattern/store."
 ],
 "C25": [
  "partial",
  "Proved for every history of writes through the macros and 1-d/2-d/3-d requests, with totality. Missing: stores that bypass the macros; the checkpoint reader does one, and then the answer is stale: C25_poke_stale_refuted."
 ],
 "C26": [
  "proved",
  "For every reachable pool and every predicate in place of the regular expression."
 ],
 "C41": [
  "proved",
  "All strings."
 ],
 "C42": [
  "proved",
  "All grids and lists of names; the leading-comma abort is also proved."
 ],
 "C23": [
  "partial",
  "Fresh folder with the least free index, pairwise distinct over every history of calls (mkdir succeeding, one shell word). The reopening half is false: C23_open_reopens_refuted."
 ],
 "C43": [
  "partial",
  "Proved for every path with a dot after its last slash (below 400 characters); refuted for a dot in the directory only."
 ],
 "C27": [
  "proved",
  "32-bit unsigned arithmetic, for every shape whose number of points fits."
 ],
 "C28": [
  "proved",
  "32-bit unsigned and int arguments."
 ],
 "C44": [
  "proved",
  "Any 1-d transform on any element type."
 ],
 "C45": [
  "proved",
  "32-bit unsigned arithmetic."
 ],
 "C29": [
  "proved",
  "any element type (also IEEE doubles), regular / row major / long formats; int format needs at most INT_MAX kept entries"
 ],
 "C30": [
  "partial",
  "valid up to INT_MAX kept entries; beyond it an invalid matrix is returned silently (refuted)"
 ],
 "C31": [
  "partial",
  "entrywise when the lookup stays in bounds; with the plain lookup and a missing lower-right entry the code reads past the array (refuted)"
 ],
 "C32": [
  "proved",
  "all format pairs the code accepts; null arguments not modelled"
 ],
 "C33": [
  "proved",
  "the property is refuted: for every matrix the copy is the zero matrix"
 ],
 "C34": [
  "proved",
  "freeing the members (flag YES) not modelled"
 ],
 "C35": [
  "partial",
  "exact characterisation; plain lookup reads past the end for some entries of valid matrices (refuted)"
 ],
 "C46": [
  "partial",
  "proved below 2^32 entries, undefined behaviour above (refuted)"
 ],
 "C47": [
  "proved",
  ""
 ],
 "C48": [
  "proved",
  "C48_repeated_delimiter_refuted: consequence of the exact description"
 ],
 "C49": [
  "partial",
  "patterns without special characters are covered exactly; the anchored case is refuted (C49_anchored_refuted); other regular expressions are not modelled"
 ],
 "C50": [
  "proved",
  ""
 ],
 "C51": [
  "proved",
  "the folder-making function is arbitrary but must return paths that are plain parameter values"
 ],
 "C36": [
  "partial",
  "proved for a00 != 0 and for all positive definite symmetric matrices; false for every matrix with a00 = 0 (C36_zero_first_entry_refuted). Exact real arithmetic."
 ],
 "C37": [
  "proved",
  "exact real arithmetic, UMFPACK replaced by its contract (solver_ok)"
 ],
 "C52": [
  "partial",
  "proved for B=0 or |B|^2>=1e-12; refuted for smaller velocities (C52_slow_refuted)"
 ],
 "C53": [
  "partial",
  "undoing holds for one angle at a time; refuted for two angles"
 ],
 "C54": [
  "partial",
  "inverse proved where also cos(phi) != 0; refuted on the yz plane (non-finite result)"
 ],
 "C38": [
  "partial",
  "exact outside the two round-off windows; at multiples of 2 pi other than 0 and 2 pi the code divides by zero (refuted)"
 ],
 "C55": [
  "proved",
  "one line of a patch, exact real arithmetic"
 ],
 "C56": [
  "proved",
  "one line of a patch, exact real arithmetic; at most 500000 points so that no inner point falls into a round-off window"
 ],
 "C57": [
  "partial",
  "extrema grid up to 216 points; refuted above"
 ],
 "C58": [
  "partial",
  "up to 500000 / 1025 points and outside the round-off windows; refuted above 1025"
 ],
 "C59": [
  "proved",
  "one direction; coordinate factor not included"
 ],
 "C39": [
  "proved",
  "Refusal, honest success for continuous functions, convergence bound, other outcomes. The refuted theorem: on MAX_ITER the solution stays 0 (outside the bracket)."
 ],
 "C40": [
  "proved",
  "Function registry, named functions, project registry and the project main runs. What a registered function does is abstract."
 ],
 "C60": [
  "proved",
  "Equations finite and never interrupting. Three refuted readings: OK is a root, never worse, zero tolerance ends."
 ],
 "C61": [
  "proved",
  "Chebyshev extrema, T_n basis, exact reals. The cache of coefficients is C25/C41/C42."
 ],
 "C62": [
  "proved",
  "Cartesian patches. Other coordinate systems: not covered (plan_integration leaves the function pointer null for coordinate systems other than Cartesian and CubedSpherical)."
 ],
 "C63": [
  "proved",
  "Cartesian patches."
 ],
 "C64": [
  "proved",
  "Cartesian patches; the det_h files (Chebyshev extrema variant)."
 ],
 "C65": [
  "proved",
  "For any Jacobian supplied by the patch; Chebyshev basis."
 ],
 "C66": [
  "proved",
  "Exactness, refusal of even sizes, the single point."
 ],
 "C67": [
  "partial",
  "Exact for every n on the sum; the call itself is undefined behaviour from 7 points on because the error estimate overflows an int factorial (refuted theorem). Missing: exactness of the Lobatto and Legendre rules (table weights)."
 ],
 "C68": [
  "proved",
  "erfc is a parameter with values in [0,2]; up to 500000 points per direction."
 ],
 "C69": [
  "proved",
  "exact reals. Companion refutation: below h = 1 densities may be negative."
 ],
 "C70": [
  "proved",
  "exact reals. Companion refutation: at h = 1 with Gamma > 2 no finite derivative."
 ],
 "C71": [
  "proved",
  "exact reals."
 ],
 "C72": [
  "proved",
  "exact reals. Companion refutation: exactly 1e-12 below an inner threshold the program stops."
 ],
 "C73": [
  "partial",
  "refused when the misorder is before the last threshold or an exponent is 1; refuted for the last threshold (accepted), for a single piece and for too few thresholds (out-of-bounds reads)."
 ],
 "C74": [
  "proved",
  "the interpolant is any function through its points; companion refutation for tables of fewer than four rows (out-of-bounds read)."
 ],
 "C75": [
  "partial",
  "proved for shift 0; refuted in general: the shift added under the logarithm is missing in the chain rule."
 ],
 "C76": [
  "partial",
  "exact reals. Without subsampling proved for all N. With subsampling proved unless the stride N/max >= 2 divides max-1; refuted there (division by zero), and the last point used is max-1, not N-1."
 ],
 "C77": [
  "proved",
  "exact reals. Companion refutation: exactly 1e-12 right of any given point, DBL_MAX is returned."
 ],
 "C78": [
  "proved",
  "exact reals. Companion refutation: the last data point is refused; the advertised derivative of the interpolant is a spline through the slopes."
 ],
 "C79": [
  "proved",
  "exact reals; acc >= 1. Companion refutation: acc+M points are refused though sufficient, points outside the grid accepted, acc = 0 reads unset weights."
 ],
 "C80": [
  "partial",
  "exact reals; refuted beyond the last sample (h > 2), where 0 is returned."
 ],
 "C81": [
  "partial",
  "proved for coordinates in the box, at an end or at least 1e-12 from it, and not exactly at the tolerance from an end; the round trip and the inside test are refuted outside that (C81_round_trip_refuted, C81_hole_refuted)"
 ],
 "C82": [
  "partial",
  "cover, uniqueness, search order proved for all; locating is proved for points that C81 covers; x_of_X ignores the box in X0, X1 (refuted)"
 ],
 "C83": [
  "partial",
  "all types and sides; for OT_T_SCS only constant radii (or flat inner face), otherwise refuted (C83_varying_radius_refuted)"
 ],
 "C84": [
  "partial",
  "directions closer than 1e-12 to an axis, the equator and the poles are excluded; some of them are refuted (C84_snap_refuted)"
 ],
 "C85": [
  "partial",
  "forced location proved; find_node proved for |x| > 1.0001 and well separated nodes, refuted for |x| <= 1.0001"
 ],
 "C86": [
  "proved",
  "exact arithmetic (any commutative ring); UMFPACK is a parameter with the contract exact_solver; the bound on dropped entries is over the reals"
 ],
 "C87": [
  "proved",
  "all sizes below 2^32 nodes"
 ],
 "C88": [
  "proved",
  "Partial_Derivative, the interpolation and their Jacobians are parameters assumed to match (jacobians_match); the sewing is a function of the subfaces"
 ],
 "C89": [
  "proved",
  ""
 ],
 "C90": [
  "proved",
  "exact arithmetic; equations and their matrices are parameters; FieldUpdate is part of the equations"
 ],
 "C91": [
  "partial",
  "a residual that is not finite is not noticed if an earlier patch has a large one (C91_nan_refuted)"
 ],
 "C92": [
  "partial",
  "what the check accepts is characterised; patches without interface points, collocated nodes that are not interface nodes of the neighbour, self-adjacent patches and the regular assembly are refuted; the grids of C88 and C90 are the positive part"
 ],
 "C93": [
  "proved",
  "model generated by tools/c2coq.py from the C loop body; exact reals"
 ],
 "C94": [
  "proved",
  "model generated by tools/c2coq.py; the symmetric storage equals the full tensor only where the contracted derivatives of the connection commute, proved for exact metric derivatives; spectral derivatives satisfy it up to their error"
 ],
 "C95": [
  "partial",
  "positive definite metrics proved; the test for a missing metric is inverted (C95_given_metric_refuted); pow is Rpower, pointwise"
 ],
 "C96": [
  "proved",
  "models generated by tools/c2coq.py; spectral derivatives are arbitrary matrices D1, D2; exact reals"
 ],
 "C97": [
  "proved",
  "as C96"
 ],
 "C98": [
  "partial",
  "statement on jets (value, first and second derivatives of the shift): the residual takes the spectral derivative of (L beta)^ij, the Jacobian the second derivatives of beta, equal on nodal values only up to truncation"
 ],
 "C99": [
  "proved",
  "unit conformal normal assumed for the horizon statement; its derivative is a field the code reads"
 ],
 "C100": [
  "proved",
  "derivatives of the physical fields are given by the product rule (exact differentiation); the identities version ignores the source rescaling, so it agrees for EConfC = JConfC = 1"
 ],
 "C101": [
  "proved",
  "models generated by tools/c2coq.py; exact reals; spectral derivatives are arbitrary matrices; that the interpolation is linear with the weights the Jacobian uses is part of the statement's data"
 ],
 "C102": [
  "partial",
  "first form proved in full; third form: matrix is the derivative of the residual only where the conformal metric is flat, refuted elsewhere; inner boundary rows are zero (refuted theorem)"
 ],
 "C103": [
  "proved",
  "models generated by tools/c2coq.py; exact reals; node by node"
 ],
 "C104": [
  "partial",
  "C <= beta.dphi proved; for larger C the stored enthalpy has a different Euler constant (refuted theorem)"
 ],
 "C105": [
  "partial",
  "proved when no infall velocity acts along z; otherwise Gtilda uses a velocity field without the z component (refuted theorem); interpolation and differentiation at the centre taken as exact"
 ],
 "C106": [
  "proved",
  "exact reals"
 ],
 "C107": [
  "partial",
  "proved for odd n and n <= 92682; for even n the highest mode is returned doubled, above 92682 points the Uint product m*i wraps (two refuted theorems)"
 ],
 "C108": [
  "partial",
  "exactness below the Nyquist degree and node reproduction for odd counts proved; for even counts the highest mode is doubled (refuted theorem)"
 ],
 "C109": [
  "partial",
  "exact below the Nyquist degree; the theta count is always doubled to an even number, so the highest mode is doubled (refuted theorem)"
 ],
 "C110": [
  "proved",
  "ints and Uints without overflow"
 ],
 "C111": [
  "partial",
  "functions and harmonics proved for every degree; theta derivative proved up to degree 46340, from which on (l+m)(l-m+1) overflows an int (refuted theorem)"
 ],
 "C112": [
  "partial",
  "the whole call is proved for Ntheta <= 6; the sums are the right ones for every Ntheta, but from seven points on (the recommended Ntheta for Lmax >= 3) the quadrature computes (2n)! in an int and overflows (refuted theorem); the root table is assumed to hold exact zeros"
 ],
 "C113": [
  "proved",
  "for exact solutions of the program's equations; real arithmetic"
 ],
 "C114": [
  "partial",
  "profile, step, parity and surface proved; the claim about the start at the centre is refuted: the expansion lacks a factor 1/hc in r^2 (ratio of squares tends to hc), and the integrand of the isotropic constant is set to 0 at the centre instead of its limit; a general order-4 error bound for the Runge-Kutta step is not proved (exactness for cubic slopes and linear systems is)"
 ],
 "C115": [
  "partial",
  "proved up to twice the tolerance, and with status 0 when no tried mass is at exactly the tolerance; a request above the maximum mass returns a star of another mass with status 1 (refuted theorem); infinite masses are not modelled"
 ],
 "C116": [
  "partial",
  "lookup, dispatch, query and set_param proved; the documented thread safe reader for NS-NS systems does not exist, a parameter that has only an array crashes get_param_dbl, and a parameter without a name is accepted (refuted theorems). get_param_dbl reads the text of the parameter, not its double."
 ],
 "C117": [
  "partial",
  "proved with the search for patches, the interpolation and the addition of doubles as parameters; with fewer evolution names than fields the program gives a null pointer to strcmp (proved as UB) and the thread safe call may return a value that is not finite (refuted)"
 ],
 "C118": [
  "partial",
  "both round trips proved; a missing evolution name writes a nameless block, and a first line of 998 characters makes a well-formed file of coordinates unreadable (proved)"
 ],
 "C119": [
  "partial",
  "proved for every usable hole; a velocity with |v|^2 below 1e-12 is silently replaced by rest (refuted), and the direction of spin components under 1e-12 is not claimed"
 ],
 "C120": [
  "partial",
  "exact for moving holes; for a hole at rest the code uses 1/sqrt(1-1e-14) for 1, and the deviation of lapse and shift is proved exactly (suffix _partial)"
 ],
 "C121": [
  "proved",
  "first and second derivatives of all components; the code's constant 1/sqrt(2) is a parameter"
 ],
 "C122": [
  "partial",
  "true when two of the three directions agree; the mixed derivative xyz is wrong (120 lost in three terms): refuted for every spinning hole along z in a whole octant"
 ],
 "C123": [
  "partial",
  "the surface equation is right for every target radius; the target radius M+sqrt(M^2+a^2) is the horizon only for a = 0 (refuted)"
 ],
 "C124": [
  "partial",
  "general start-off proved; the close start-off stores the irreducible mass as the Christodoulou mass (refuted)"
 ],
 "C125": [
  "proved",
  "the formula; for a boosted hole the time derivative of the metric is neglected by the code (noted in DESIGN)"
 ],
 "C126": [
  "proved",
  ""
 ],
 "C127": [
  "proved",
  "at the one call pattern of the project; the null stem default is C95"
 ],
 "C128": [
  "partial",
  "the Painleve-Gullstrand shift is not claimed at nodes with an x or y component in (0,1e-12) of the centre (arctan snaps); everything else proved"
 ],
 "C129": [
  "proved",
  ""
 ],
 "C130": [
  "proved",
  "node-wise: the divergence theorem for the integrals themselves is not part of the model"
 ],
 "C131": [
  "proved",
  ""
 ],
 "C132": [
  "proved",
  ""
 ],
 "C133": [
  "proved",
  ""
 ],
 "C134": [
  "partial",
  "the flat identity is proved; that the two parts fit together in the metric they are integrated with is refuted (C134_ossokine_refuted)"
 ],
 "C135": [
  "partial",
  "unit length proved for all metrics, orthogonality for flat conformal metrics; refuted in general (C135_normals_refuted)"
 ],
 "C136": [
  "proved",
  ""
 ],
 "C137": [
  "proved",
  "the calc_* functions of irreducible mass, baryonic mass, CM and spin are only reached, not modelled item by item"
 ],
 "C138": [
  "proved",
  ""
 ],
 "C139": [
  "partial",
  "proved for 18 combinations; refuted for the constraint momentum of NS-NS and NS grids (C139_coverage_refuted) and for the volume methods of the BH-BH momentum, which always stop (C139_bhbh_refuted)"
 ],
 "C140": [
  "proved",
  ""
 ],
 "C141": [
  "proved",
  ""
 ],
 "C142": [
  "proved",
  "the angular interpolation of the coefficients is the subject of C110-C112"
 ],
 "C143": [
  "proved",
  ""
 ],
 "C144": [
  "partial",
  "derivatives and pairs proved; the names are proved except for names with a leading underscore and no index, where they are refuted (C144_names_refuted)"
 ],
 "C145": [
  "proved",
  ""
 ],
 "C146": [
  "partial",
  "continuity proved; decay (C146_decay_refuted) and differentiability (C146_C1_refuted) are refuted"
 ],
 "C147": [
  "partial",
  "refuted for the binary start-off (C147_close_refuted) and for spins between 1 and 1 + ROUND_OFF_ERR (C147_nan_refuted)"
 ],
 "C148": [
  "proved",
  ""
 ],
 "C149": [
  "proved",
  ""
 ],
 "C150": [
  "proved",
  ""
 ],
 "C151": [
  "proved",
  ""
 ],
 "C152": [
  "partial",
  "refuted for values within ROUND_OFF_ERR of the surface at the ends of the interval (C152_roundoff_refuted)"
 ],
 "C153": [
  "proved",
  "C153_reset_refuted: uninterrupted searches in between do not reset the count"
 ],
 "C154": [
  "partial",
  "the vector is normal to the sphere for conformally flat metrics (C154_normal_partial), not in general (C154_normal_refuted)"
 ],
 "C155": [
  "proved",
  ""
 ],
 "C156": [
  "proved",
  ""
 ],
 "C157": [
  "proved",
  ""
 ],
 "C158": [
  "partial",
  "refuted without a prefix: the alias is empty and the solver's look-up stops the program (C158_alias_refuted); a region that merely contains \".*\" is the whole grid"
 ],
 "C159": [
  "partial",
  "proved for fields named once under their own names; refuted for aliased fields (C159_alias_refuted) and repeated names (C159_twice_refuted)"
 ],
 "C160": [
  "partial",
  "refuted for texts not of the documented form (C160_loose_refuted) and for repeated words (C160_twice_refuted)"
 ],
 "C161": [
  "partial",
  "the potential is refuted for centres off the axis x = x_CM (C161_velocity_refuted)"
 ],
 "C162": [
  "proved",
  ""
 ],
 "C163": [
  "proved",
  ""
 ],
 "C164": [
  "partial",
  "refuted that places are checked against each other: both stars may be left, and 'right, not left' is left (C164_loose_refuted)"
 ],
 "C165": [
  "partial",
  "refuted for texts of the other kind of object: the second star asking for BH_around silently gets NS2_around (C165_careless_refuted); texts that do not fit in the buffers are outside the model's Ok"
 ],
 "C166": [
  "proved",
  ""
 ],
 "C167": [
  "partial",
  "refuted for the shift of two holes, beta1 + beta2 - 1, which is -1 far away (C167_shift_refuted)"
 ],
 "C168": [
  "proved",
  ""
 ],
 "C169": [
  "proved",
  ""
 ],
 "C170": [
  "partial",
  "refuted that only derivatives are accepted: dpsi_U0 and density0 count as derivatives (C170_loose_refuted); names of 100 characters overrun the buffer"
 ],
 "C171": [
  "partial",
  "without the condition on the order refuted (C171_stale_refuted); sufficient condition by stages proved (C171_stages)"
 ],
 "C172": [
  "partial",
  "patches are compared only when some field is copied (C172_unchecked_refuted)"
 ],
 "C173": [
  "proved",
  ""
 ],
 "C174": [
  "proved",
  "the derivative entries themselves are the subject of C59; here they are the matrices of linear operations"
 ],
 "C175": [
  "proved",
  "patches without nodes stop the convergence test (C175_test_success); decimal places printed are not modelled"
 ]
}