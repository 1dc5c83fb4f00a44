{"id": "C01", "title": "Parameter names are case-insensitive", "statement": "Every parameter access canonicalises the name with the one name rule (text before the first '_' to upper case and the rest to lower case; no '_' : all lower case). The rule is idempotent, keeps the length, and two spellings reach the same parameter exactly when they differ only in letter case.", "quantifier": "all pairs of names", "why_tests_cant": "there are exponentially many spellings of each name; a test samples a few", "anchors": ["Src/Main/Core/parameters.c:par_rule1_uppercase_lowercase", "Src/Main/Core/parameters.c:get_parameter"]}
{"id": "C02", "title": "Parameter database behaves like a map", "statement": "After any history of set / add / set-default / read / free operations that does not abort, a string read returns the value of the most recent write to that name (any spelling), writes to one name never change another, and no two entries carry the same canonical name.", "quantifier": "every finite history of operations, every name, every value", "why_tests_cant": "must hold for all histories", "anchors": ["Src/Main/Core/parameters.c:update_parameter_string", "Src/Main/Core/parameters.c:update_parameter_integer", "Src/Main/Core/parameters.c:update_parameter_double_format", "Src/Main/Core/parameters.c:add_parameter", "Src/Main/Core/parameters.c:set_default_parameter", "Src/Main/Core/parameters.c:free_parameter", "Src/Main/Core/parameters.c:get_parameter_value_S"]}
{"id": "C03", "title": "Adding an existing parameter aborts; setting an absent one creates it", "statement": "add_* with a name (any spelling) that is already in the database stops the program with an error and never overwrites; Pset* on an absent name creates exactly one entry.", "quantifier": "all databases, names, values", "why_tests_cant": "for every reachable database and every spelling", "anchors": ["Src/Main/Core/parameters.c:add_parameter", "Src/Main/Core/parameters.c:add_parameter_string", "Src/Main/Core/parameters.c:add_parameter_double"]}
{"id": "C04", "title": "Integer parameters round-trip", "statement": "Pseti(name,n) followed by Pgeti(name), under any spelling and after any operations on other names, returns n for every representable int.", "quantifier": "every int n in [INT_MIN,INT_MAX], every database", "why_tests_cant": "2^32 values and all databases", "anchors": ["Src/Main/Core/parameters.c:update_parameter_integer", "Src/Main/Core/parameters.c:get_parameter_value_I"]}
{"id": "C05", "title": "Numeric cache is coherent", "statement": "Pgetd always returns the number denoted by the value last written with Psets/Pseti/Psetd or taken from the iterative list, never a stale cached one. (The code violates this for Pset_default on an empty parameter that was read as a number before.)", "quantifier": "every history of writes and reads", "why_tests_cant": "the cache flag makes the result depend on the whole history of reads and writes", "anchors": ["Src/Main/Core/parameters.c:get_parameter_value_D", "Src/Main/Core/parameters.c:update_parameter_string", "Src/Main/Core/parameters.c:set_default_parameter", "Src/Main/Core/parameters.c:update_iterative_parameter_ip"]}
{"id": "C06", "title": "Freeing a parameter removes exactly that one", "statement": "free_parameter(name) removes the entry of that name, keeps every other entry with all of its attributes, and keeps the array dense; an absent name leaves the database unchanged.", "quantifier": "all databases with unique names, all names", "why_tests_cant": "removal moves the last element; every position and size matters", "anchors": ["Src/Main/Core/parameters.c:free_parameter"]}
{"id": "C07", "title": "n-th value of an iterative parameter", "statement": "For a value v0->v1->...->vk the n-th iteration uses v_n, and v_k for every n beyond the last.", "quantifier": "all lists of values without the arrow, all n", "why_tests_cant": "unbounded lists and iteration numbers", "anchors": ["Src/Main/Core/parameters.c:get_n_value_str_ip", "Src/Main/Core/parameters.c:update_iterative_parameter_ip"]}
{"id": "C08", "title": "A single value with multiplicity one is usable", "statement": "A parameter written v(x1) must behave as the single value v. The code instead dereferences a null pointer (undefined behaviour): the arrow is missing after expansion while the parameter was classified as iterative.", "quantifier": "all values v", "why_tests_cant": "needs the interaction of the classifier, the expander and the splitter", "anchors": ["Src/Main/Core/parameters.c:add_parameter", "Src/Main/Core/parameters.c:parse_multiplicity_of_iterative_parameter", "Src/Main/Core/parameters.c:get_n_value_str_ip"]}
{"id": "C09", "title": "Multiplicity notation expands correctly", "statement": "In an iterative value every item a(xN) is replaced by N copies of a joined by arrows, items without multiplicity are kept, and the order is kept; a(x0) and a trailing arrow abort.", "quantifier": "all item lists and multiplicities representable in int", "why_tests_cant": "unbounded lists and multiplicities", "anchors": ["Src/Main/Core/parameters.c:parse_multiplicity_of_iterative_parameter"]}
{"id": "C10", "title": "Parameter value expansion terminates", "statement": "Expansion of multiplicity notation terminates for every input string (result or abort).", "quantifier": "all strings", "why_tests_cant": "termination cannot be tested", "anchors": ["Src/Main/Core/parameters.c:parse_multiplicity_of_iterative_parameter"]}
{"id": "C11", "title": "Total number of iterations", "statement": "The reported number of iterations is the maximum over all iterative parameters of the number of their values (1 when there is none), unless total_iterations_ip is set, in which case that value is used.", "quantifier": "all parameter databases", "why_tests_cant": "maximum over unbounded databases", "anchors": ["Src/Main/Core/parameters.c:total_iterations_ip"]}
{"id": "C12", "title": "Iteration counter and stop flag", "statement": "update_iteration_params never goes past the requested number of iterations: STOP is raised exactly when the iteration reached the total; the iteration number of a fresh or resumed run follows the main loop or the stored iteration, whichever applies; consecutive calls visit every iteration once.", "quantifier": "all loop counters, totals, resumed states", "why_tests_cant": "all histories of main loop and resumes", "anchors": ["Src/Main/Core/parameters.c:update_iteration_params"]}
{"id": "C13", "title": "Parameter file is parsed to exactly its assignments", "statement": "A file whose lines are name=value (with blanks, comments, blank lines and continued lines) yields a database with exactly these parameters with these values, in order, and nothing else.", "quantifier": "all well-formed files", "why_tests_cant": "unbounded set of files", "anchors": ["Src/Main/Modules/Text_and_File_Tools/reading_parameter_file.c:read_input_file", "Src/Main/Modules/Text_and_File_Tools/reading_parameter_file.c:populate_parameters", "Src/Main/Modules/Text_and_File_Tools/text_tools.c:tok_s"]}
{"id": "C14", "title": "Comments, blanks and continuation lines", "statement": "The parameter buffer equals the file with spaces and tabs removed, comments removed up to (not including) the newline, and backslash-newline joined; a backslash not followed by a newline aborts.", "quantifier": "all files of bounded legal size", "why_tests_cant": "unbounded set of files", "anchors": ["Src/Main/Modules/Text_and_File_Tools/reading_parameter_file.c:make_buffer"]}
{"id": "C15", "title": "The last line of a parameter file needs no newline", "statement": "A parameter file whose last line lacks a newline is read completely. The code loses the last character when the file ends inside a comment and reads before the buffer for a file that is a single comment.", "quantifier": "all files without final newline", "why_tests_cant": "end-of-file corner cases of all files", "anchors": ["Src/Main/Modules/Text_and_File_Tools/reading_parameter_file.c:make_buffer"]}
{"id": "C16", "title": "Comma separated lists split into their items", "statement": "read_separated_items_in_string returns exactly the items separated by the delimiter, in order, for every string without empty items; joining the result gives the input back.", "quantifier": "all strings and delimiters", "why_tests_cant": "unbounded strings", "anchors": ["Src/Main/Modules/Text_and_File_Tools/text_tools.c:read_separated_items_in_string", "Src/Main/Modules/Text_and_File_Tools/text_tools.c:tok_s"]}
{"id": "C17", "title": "Leading delimiters are skipped", "statement": "A leading delimiter in a list must not change the items. The code duplicates the item when the string has only a leading delimiter (\",a\" gives [a;a]), and a line \"=b\" silently defines parameter b=b.", "quantifier": "all strings with a leading delimiter", "why_tests_cant": "corner case of a mutating tokenizer", "anchors": ["Src/Main/Modules/Text_and_File_Tools/text_tools.c:tok_s"]}
{"id": "C18", "title": "Checkpoint parameters round-trip", "statement": "Reading the parameter section of a checkpoint yields byte-for-byte the parameters that were written: names, string values, numeric values, cached flags, iterative lists and array values, in order.", "quantifier": "all parameter databases whose strings fit in 32-bit sizes", "why_tests_cant": "unbounded data", "anchors": ["Src/Main/Modules/Checkpoint/checkpoint.c:write_parameters", "Src/Main/Modules/Checkpoint/checkpoint.c:read_parameters", "Src/Main/Modules/Includes/text_and_file_tools_lib.h:FWriteP_bin,FReadP_bin"]}
{"id": "C19", "title": "Checkpoint fields round-trip", "statement": "Reading the field section of a checkpoint restores, in every patch, exactly the fields selected for saving with the same values, and leaves every other field untouched.", "quantifier": "all grids, fields and save lists", "why_tests_cant": "unbounded data", "anchors": ["Src/Main/Modules/Checkpoint/checkpoint.c:write_fields", "Src/Main/Modules/Checkpoint/checkpoint.c:read_fields_from_checkpoint_file"]}
{"id": "C20", "title": "Checkpoint writing is crash-atomic", "statement": "Whatever prefix of the write sequence is executed before a crash, the file checkpoint.dat is either the complete old checkpoint or the complete new one. After a crash in the middle the left-over temporary file makes the next checkpoint in that directory abort, still without damaging checkpoint.dat.", "quantifier": "every crash point, every old and new content", "why_tests_cant": "every crash point", "anchors": ["Src/Main/Modules/Checkpoint/checkpoint.c:write_checkpoint", "Src/Main/Modules/Checkpoint/checkpoint.c:write_header", "Src/Main/Modules/Checkpoint/checkpoint.c:move_checkpoint_file"]}
{"id": "C21", "title": "modify: parameters override the checkpoint", "statement": "After restart, each parameter given as modify:name in the parameter file replaces the stored value, everything else keeps the checkpoint value, and numeric reads see the new value. (A new iterative parameter given that way loses all but its first value.)", "quantifier": "all stored databases and all sets of modified parameters", "why_tests_cant": "all combinations of stored and new parameters", "anchors": ["Src/Main/Modules/Checkpoint/checkpoint.c:incorporate_modified_checkpoint_par", "Src/Main/Modules/Checkpoint/checkpoint.c:find_and_save_modified_checkpoint_pars"]}
{"id": "C22", "title": "A truncated checkpoint is not accepted", "statement": "is_checkpoint_sound accepts every completely written file and rejects every file that does not end with the end mark; in particular a proper prefix cut before the end mark is complete is rejected unless it happens to end with the mark.", "quantifier": "all files, all truncation points", "why_tests_cant": "every truncation point", "anchors": ["Src/Main/Modules/Checkpoint/checkpoint.c:is_checkpoint_sound"]}
{"id": "C23", "title": "Output folders never overwrite an existing one", "statement": "make_directory always creates a fresh folder: the one with the least unused index; it never reuses an existing name. open_folder should reopen an existing folder; the code probes a name format that make_folder never creates.", "quantifier": "all directory contents", "why_tests_cant": "all directory states", "anchors": ["Src/Main/Modules/Text_and_File_Tools/file_and_directory.c:make_directory", "Src/Main/Modules/Text_and_File_Tools/file_and_directory.c:open_folder", "Src/Main/Modules/Text_and_File_Tools/file_and_directory.c:make_folder"]}
{"id": "C24", "title": "Field pool of a patch is a map by name", "statement": "add_field never creates two fields of the same name (it aborts), remove_field removes exactly that field and keeps all others with their data, lookup finds a field iff it was added and not removed.", "quantifier": "all histories of add/remove/lookup", "why_tests_cant": "all histories", "anchors": ["Src/Main/Modules/Fields/field.c:add_field", "Src/Main/Modules/Fields/field.c:remove_field", "Src/Main/Modules/Fields/field.c:LookUpField"]}
{"id": "C25", "title": "Cached spectral coefficients are never stale", "statement": "After any history of writes through the field write macros and coefficient requests, a coefficient request returns the transform of the current field values.", "quantifier": "all histories, all transform functions", "why_tests_cant": "the cache makes the result depend on the history", "anchors": ["Src/Main/Modules/Fields/field.c:make_coeffs_1d", "Src/Main/Modules/Fields/field.c:make_coeffs_2d", "Src/Main/Modules/Fields/field.c:make_coeffs_3d", "Src/Main/Modules/Fields/field.c:IsAvailable_1d", "Src/Main/Modules/Includes/fields_lib.h:WRITE_v"]}
{"id": "C26", "title": "Removing fields by pattern removes all and only the matches", "statement": "remove_field_regex removes every field whose name matches and keeps every other, although removal moves elements while iterating.", "quantifier": "all field pools, all match predicates", "why_tests_cant": "all pool orders", "anchors": ["Src/Main/Modules/Fields/field.c:remove_field_regex"]}
{"id": "C27", "title": "Grid point index linearisation is a bijection", "statement": "(i,j,k) -> linear index and back are mutually inverse on all grid shapes and cover [0,n0*n1*n2) exactly once.", "quantifier": "all n0,n1,n2>0 and all indices", "why_tests_cant": "all sizes", "anchors": ["Src/Main/Modules/Utilities/useful_functions.c:ijk_to_i", "Src/Main/Modules/Includes/utilities_lib.h:i_j_k_to_ijk"]}
{"id": "C28", "title": "Symmetric tensor index map", "statement": "i_j_to_ij_symmetric maps unordered index pairs one-to-one onto 0..n(n+1)/2-1.", "quantifier": "all n and all pairs", "why_tests_cant": "all sizes", "anchors": ["Src/Main/Modules/Utilities/useful_functions.c:i_j_to_ij_symmetric_row_major_order"]}
{"id": "C29", "title": "Regular <-> CCS conversion loses only dropped entries", "statement": "Converting a dense matrix to compressed column storage and back returns every entry with magnitude above the drop limit unchanged and 0 for every other entry.", "quantifier": "all matrices, all drop limits", "why_tests_cant": "all sizes and values", "anchors": ["Src/Main/Modules/Maths/Linear_Algebra/matrix_conversions.c:convert_reg2ccs", "Src/Main/Modules/Maths/Linear_Algebra/matrix_conversions.c:convert_ccs2reg"]}
{"id": "C30", "title": "Produced CCS matrices are structurally valid", "statement": "Every produced CCS matrix has Ap[0]=0, non-decreasing Ap, Ap[ncol]=number of stored values, and strictly increasing row indices within range in each column (what the direct solver requires).", "quantifier": "all matrices", "why_tests_cant": "all sizes and values", "anchors": ["Src/Main/Modules/Maths/Linear_Algebra/matrix_conversions.c:convert_reg2ccs"]}
{"id": "C31", "title": "CCS addition/subtraction is entrywise", "statement": "CCSOpCCS returns the entrywise sum or difference, up to entries below the drop limit.", "quantifier": "all pairs of valid CCS matrices of the same shape", "why_tests_cant": "all sparsity patterns", "anchors": ["Src/Main/Modules/Maths/Linear_Algebra/matrix_arithmetic.c:CCSOpCCS"]}
{"id": "C32", "title": "Matrix products are the mathematical products", "statement": "matrix_by_matrix and matrix_by_vector return the mathematical product for each storage format combination; with a preallocated result they accumulate into it.", "quantifier": "all matrices of compatible shapes", "why_tests_cant": "all sizes and values", "anchors": ["Src/Main/Modules/Maths/Linear_Algebra/matrix_arithmetic.c:matrix_by_matrix", "Src/Main/Modules/Maths/Linear_Algebra/matrix_arithmetic.c:matrix_by_vector"]}
{"id": "C33", "title": "Casting a regular matrix to regular copies it", "statement": "cast_matrix_reg of a regular matrix returns an equal matrix. The copy routine's guard is inverted, so the result is the zero matrix.", "quantifier": "all matrices", "why_tests_cant": "needs the claim for all, refuted by a witness", "anchors": ["Src/Main/Modules/Maths/Linear_Algebra/matrix_conversions.c:copy_reg2reg", "Src/Main/Modules/Maths/Linear_Algebra/matrix_conversions.c:cast_matrix_reg"]}
{"id": "C34", "title": "Stacking sub-matrices keeps every entry", "statement": "compress_stack2ccs stacks a list of dense matrices so that each entry above the drop limit is found at its row offset in the compressed result.", "quantifier": "all lists of matrices and offsets", "why_tests_cant": "all sizes", "anchors": ["Src/Main/Modules/Maths/Linear_Algebra/matrix_conversions.c:compress_stack2ccs"]}
{"id": "C35", "title": "Sparse entry lookup agrees with the dense matrix", "statement": "Reading entry (r,c) of a valid CCS matrix returns the dense entry, for the plain and for the coarse-grained index variant, for every slice number.", "quantifier": "all valid CCS matrices, all r,c, all slice counts", "why_tests_cant": "all sparsity patterns", "anchors": ["Src/Main/Modules/Maths/Equation_Solvings/dfs_df.c:read_matrix_entry_ccs", "Src/Main/Modules/Maths/Equation_Solvings/dfs_df.c:coarse_grain_Ap_ccs_matrix"]}
{"id": "C36", "title": "3x3 inverse", "statement": "The 3x3 inverse macros return the inverse matrix whenever the matrix is invertible, the determinant macros are non-zero exactly for invertible matrices, and for positive definite symmetric matrices (metrics) the symmetric macro always returns the inverse. (The generated formula divides by a00, so it fails for every matrix with a00=0.)", "quantifier": "all real 3x3 matrices", "why_tests_cant": "all real matrices", "anchors": ["Src/Main/Modules/Includes/maths_linear_algebra_lib.h"]}
{"id": "C37", "title": "Matrix inversion and Gauss-Seidel preconditioner preserve the solution", "statement": "Inverting a matrix column by column gives its inverse, and precondition with GS turns a x = b into a system with exactly the same solutions whenever the diagonal of a has no zero (given a linear solver that solves). The matrix produced is not L^-1 a, because rows already overwritten are used.", "quantifier": "all sizes, matrices with non-zero diagonal, right-hand sides and solvers meeting their contract", "why_tests_cant": "all sizes and matrices", "anchors": ["Src/Main/Modules/Maths/Linear_Algebra/preconditioners.c:precondition_GS", "Src/Main/Modules/Maths/Linear_Algebra/matrix_inversions.c:invert_matrix"]}
{"id": "C38", "title": "Closed form of the cosine sum", "statement": "sum_1_N_cos_ia(N,a) equals the finite sum of cos(i a), i=1..N, for all N and all a outside the singular set, where the code uses the limit value.", "quantifier": "all N, all real a", "why_tests_cant": "all N", "anchors": ["Src/Main/Modules/Maths/General/general.c:sum_1_N_cos_ia"]}
{"id": "C39", "title": "Bisection keeps a bracketed root and reports honestly", "statement": "Bisection keeps a sign change in its bracket, the bracket halves each step, a reported success is within tolerance of a root of any continuous function or has a tiny residual, and without a sign change it refuses.", "quantifier": "all continuous functions, intervals, tolerances", "why_tests_cant": "all functions", "anchors": ["Src/Main/Modules/Maths/Equation_Solvings/root_finders.c:root_finder_bisect_method"]}
{"id": "C40", "title": "Function registry dispatch", "statement": "run_func_PtoV runs every registered function whose task and coordinate match, in registration order, and aborts when there is none; a project name is found case-insensitively and duplicates abort.", "quantifier": "all registries", "why_tests_cant": "all registries", "anchors": ["Src/Main/Modules/Utilities/function_managing.c:run_func_PtoV", "Src/Main/Core/projects.c:add_project"]}
{"id": "C41", "title": "Field attributes accumulate", "statement": "add_attribute keeps every earlier attribute, makes the new one present, does nothing when it is already there, and stops the program for a text without parentheses.", "quantifier": "all attribute strings and histories", "why_tests_cant": "all strings", "anchors": ["Src/Main/Modules/Fields/field.c:add_attribute"]}
{"id": "C42", "title": "Auxiliary fields come and go without trace", "statement": "add_aux_fields adds exactly the comma separated names to every patch and remove_aux_fields with the same list gives every patch back exactly the fields it had. A comma in front of a single name makes add_aux_fields stop the program (the name is read twice).", "quantifier": "all grids, patches and name lists", "why_tests_cant": "all lists of names and all pools", "anchors": ["Src/Main/Modules/Fields/field.c:add_aux_fields", "Src/Main/Modules/Fields/field.c:remove_aux_fields"]}
{"id": "C43", "title": "Names taken from the parameter file path", "statement": "For a parameter file dir/stem.ext the recorded file name is stem.ext, the stem is stem and the root path is dir ('.' without a directory); a name without extension is refused. (When only the directory part contains a dot the code runs past its buffers.)", "quantifier": "all paths", "why_tests_cant": "all paths", "anchors": ["Src/Main/Core/global_variables.c:find_inputfile_name", "Src/Main/Core/global_variables.c:find_relative_root_path"]}
{"id": "C44", "title": "Spectral transforms act on every grid line exactly once", "statement": "Making 1-d coefficients in a direction transforms each grid line of that direction with the 1-d transform and stores each result at the matching grid point; no other memory is touched.", "quantifier": "all grid shapes, directions, values and 1-d transforms", "why_tests_cant": "all shapes and data", "anchors": ["Src/Main/Modules/Fields/field.c:coeffs_patch_Tn_Extrema_1d", "Src/Main/Modules/Fields/field.c:coeffs_patch_Tn_Nodes_1d"]}
{"id": "C45", "title": "Edge points are recognised", "statement": "IsOnEdge is true for exactly the grid points that have at least two coordinates at an end of their range.", "quantifier": "all grid shapes and points", "why_tests_cant": "all shapes and points", "anchors": ["Src/Main/Modules/Utilities/useful_functions.c:IsOnEdge"]}
{"id": "C46", "title": "Casting to row-major keeps every entry", "statement": "cast_matrix_rmo of a regular matrix returns the same entries row after row. (The allocation size is computed in 32 bits, so from 2^32 entries on the copy writes past the block.)", "quantifier": "all matrices of all sizes", "why_tests_cant": "sizes above 2^32 entries cannot be tested", "anchors": ["Src/Main/Modules/Maths/Linear_Algebra/matrix_conversions.c:cast_matrix_rmo", "Src/Main/Modules/Maths/Linear_Algebra/matrix_memory_managers.c:alloc_matrix"]}
{"id": "C47", "title": "Case-insensitive comparison, search and index lookup", "statement": "strcmp_i is true exactly for texts equal up to letter case (false if one is null); strstr_i exactly when the second text occurs in the first up to letter case; find_index_string returns the position of the first equal text, UINT_MAX if there is none.", "quantifier": "all texts, all arrays of texts", "why_tests_cant": "every parameter option of the program is selected through these functions; tests only see a few spellings", "anchors": ["Src/Main/Modules/Text_and_File_Tools/text_tools.c:strcmp_i", "Src/Main/Modules/Text_and_File_Tools/text_tools.c:strstr_i", "Src/Main/Modules/Text_and_File_Tools/text_tools.c:find_index_string"]}
{"id": "C48", "title": "Format check", "statement": "check_format_s(s,f) accepts s exactly when the delimiters of f (its characters other than ?) occur in this order in s before the first occurrence of the last delimiter. Consequence: a format whose last delimiter also occurs earlier accepts nothing.", "quantifier": "all texts and formats", "why_tests_cant": "the set of texts and formats is infinite", "anchors": ["Src/Main/Modules/Text_and_File_Tools/text_tools.c:check_format_s"]}
{"id": "C49", "title": "Replacement replaces every occurrence once", "statement": "regex_replace with a pattern without special characters replaces all occurrences, left to right and not overlapping, keeps the rest, and reports whether there was one; an anchored pattern is replaced at the start of the text only.", "quantifier": "all texts, patterns and replacements", "why_tests_cant": "infinite set of texts; overlapping and adjacent occurrences", "anchors": ["Src/Main/Modules/Text_and_File_Tools/text_tools.c:regex_replace"]}
{"id": "C50", "title": "List parameters and adjust(...) parameters", "statement": "An equation-of-state parameter [v1,...,vn] is read as exactly v1..vn; a text without brackets, or with empty brackets, is refused. adjust(x,y,z) gives x,y,z; none gives nothing; any other text is refused.", "quantifier": "all lists of values, all surrounding texts", "why_tests_cant": "in-place cutting with a saved pointer: the result depends on every delimiter position", "anchors": ["Src/Main/Modules/Physics/EoS/eos_main.c:read_EoS_in_parameter_file", "Src/Main/Modules/Physics/System/sys_tune.c:parse_adjust_parameter", "Src/Main/Modules/Text_and_File_Tools/text_tools.c:sub_s", "Src/Main/Modules/Text_and_File_Tools/text_tools.c:tok_s"]}
{"id": "C51", "title": "A new output folder exactly when the resolution changes", "statement": "In a call of update_iteration_params that continues, a new folder (and its Diagnostics folder) is made and recorded, the change flag is 1 and the resolution counter restarts at 0 exactly when it is iteration 0 or the folder name given by n_a,n_b,n_c changed; otherwise the flag is 0, the counter grows by one and nothing is made.", "quantifier": "all parameter databases, prefixes, folder name formats, file systems and iteration numbers", "why_tests_cant": "it must hold for every parameter file and at every iteration, including after a restart", "anchors": ["Src/Main/Core/parameters.c:update_iteration_params"]}
{"id": "C52", "title": "Lorentz boost", "statement": "A boost with velocity |B|<1 preserves the Minkowski interval of every four-vector, the opposite flag undoes it, and the event moving with velocity B is brought to rest; at or above light speed no finite vector is produced.", "quantifier": "all velocities and four-vectors", "why_tests_cant": "all real velocities and vectors; fails only in a tiny band of velocities", "anchors": ["Src/Main/Modules/Physics/Transformation/boost.c:boost_transformation"]}
{"id": "C53", "title": "Rotation", "statement": "A rotation keeps the time component, scalar products and orientation, is right-handed about each axis, composes as Rz Ry Rx, and the passive rotation with the same angles undoes the active one.", "quantifier": "all angles and vectors", "why_tests_cant": "all real angles", "anchors": ["Src/Main/Modules/Physics/Transformation/rotation.c:rotation_transformation"]}
{"id": "C54", "title": "Spherical and Cartesian vector components", "statement": "Spherical-to-Cartesian maps the velocity of any curve in spherical coordinates to its Cartesian velocity, and Cartesian-to-spherical is its inverse wherever the coordinates are regular (r and sin theta not 0).", "quantifier": "all differentiable curves, points and vectors", "why_tests_cant": "all points; fails on a measure-zero set of points", "anchors": ["Src/Main/Modules/Physics/Transformation/sphe_and_cart_coords.c:spheNcart_transformation"]}
{"id": "C55", "title": "Spectral interpolation", "statement": "Interpolating a field along a line of Chebyshev extrema points returns, everywhere on the line, the unique polynomial of degree below the number of points that takes the stored values; at grid points it returns the stored values; points within 1e-12 (relative) of an end are evaluated at the end.", "quantifier": "all intervals, numbers of points, field values and target points", "why_tests_cant": "all sizes and values", "anchors": ["Src/Main/Modules/Maths/Spectral_Methods/interpolations.c:interpolation_Chebyshev_Tn_X", "Src/Main/Modules/Maths/Spectral_Methods/fourier_transformation.c:rft_1d_ChebyshevExtrema_coeffs"]}
{"id": "C56", "title": "First spectral derivative", "statement": "The first spectral derivative at each collocation point (extrema or nodes) is the exact derivative of the polynomial through the field values, in physical coordinates.", "quantifier": "all intervals, numbers of points up to 500000, field values", "why_tests_cant": "all sizes and values", "anchors": ["Src/Main/Modules/Maths/Calculus/derivatives.c:spectral_derivative_1stOrder"]}
{"id": "C57", "title": "Second spectral derivative", "statement": "The second spectral derivative at each collocation point is the exact second derivative of the polynomial through the field values. (From 217 extrema points on, an int product overflows.)", "quantifier": "all intervals, numbers of points, field values", "why_tests_cant": "all sizes and values", "anchors": ["Src/Main/Modules/Maths/Calculus/derivatives.c:spectral_derivative_2ndOrder", "Src/Main/Modules/Maths/Special_Functions/misc_functions.c:d2Cheb_Tn_dx2"]}
{"id": "C58", "title": "Functional derivatives of interpolation and derivative", "statement": "The functional derivative sums return the value (derivative) at q of the cardinal polynomial of grid point j, and stop the program for q outside [-1,1] or j not a grid point.", "quantifier": "all sizes, grid points j, points q outside round-off windows", "why_tests_cant": "all sizes and points; overflow only from 1026 points", "anchors": ["Src/Main/Modules/Maths/General/general.c:sum_0_N_dCi_dfj_by_Ti_q", "Src/Main/Modules/Maths/General/general.c:sum_0_N_dCi_dfj_by_dTi_dq"]}
{"id": "C59", "title": "Newton Jacobian of a derivative is the derivative", "statement": "The Jacobian entries for a first derivative along a line, applied to any field values, give what the derivative routine gives for those values.", "quantifier": "all sizes up to 1025, rows and field values", "why_tests_cant": "all sizes and values", "anchors": ["Src/Main/Modules/Maths/Equation_Solvings/dfs_df.c:fill_jacobian_spectral_method_1stOrder", "Src/Main/Modules/Maths/General/general.c:sum_0_N_dCi_dfj_by_dTi_dq"]}
{"id": "C60", "title": "Steepest descent is monotone and says what it did", "statement": "The steepest-descent root finder returns a residual that is the norm of the equations at the returned point, never ends (except when giving up) at a point with a larger norm than it started from, its exit status means what the last step did, and with a positive tolerance it ends. (OK does not mean a root; giving up may leave a worse point than the initial guess; a tolerance of zero can loop for ever.)", "quantifier": "all systems of equations, derivative choices, tolerances, iteration limits and initial guesses", "why_tests_cant": "all functions and starts", "anchors": ["Src/Main/Modules/Maths/Equation_Solvings/root_finders.c:root_finder_steepest_descent"]}
{"id": "C61", "title": "Whole-patch spectral interpolation reproduces polynomials", "statement": "Interpolating a field in one, two or three directions of a patch at any point inside it returns the value there of the polynomial (degree below the number of points in each direction) through the grid values; any grid values have such a polynomial.", "quantifier": "all patches with at least two Chebyshev extrema points per direction and non-empty coordinate ranges, all field values, all points of the patch", "why_tests_cant": "all sizes, values and points", "anchors": ["Src/Main/Modules/Maths/Spectral_Methods/interpolations.c:interpolation_Chebyshev_Tn_XYZ", "Src/Main/Modules/Maths/Spectral_Methods/interpolations.c:interpolation_Chebyshev_Tn_XY", "Src/Main/Modules/Maths/Spectral_Methods/interpolations.c:interpolation_Chebyshev_Tn_X"]}
{"id": "C62", "title": "Whole-patch volume integral is exact", "statement": "The spectral integral of f over a whole Cartesian patch equals the iterated integral of the polynomial through f*sqrt(det g).", "quantifier": "all patches with at least two Chebyshev extrema points per direction and non-empty coordinate ranges, all field values and metrics with non-negative determinant", "why_tests_cant": "all sizes, fields and metrics", "anchors": ["Src/Main/Modules/Maths/Calculus/integration.c:f_xyz_whole_dV_Cheb_Ext_Spec", "Src/Main/Modules/Maths/Calculus/integration.c:J_xyzN0N1N2"]}
{"id": "C63", "title": "Volume integral between grid points is exact", "statement": "The spectral integral of f between two grid points per direction of a Cartesian patch equals the iterated integral of the polynomial through f*sqrt(det g) between their coordinates, with the sign of the orientation.", "quantifier": "all patches with at least two Chebyshev extrema points per direction and non-empty coordinate ranges, all field values, metrics, and all pairs of points", "why_tests_cant": "all sizes, fields, metrics and limits", "anchors": ["Src/Main/Modules/Maths/Calculus/integration.c:f_xyz_interval_dV_Cheb_Ext_Spec"]}
{"id": "C64", "title": "Surface integral is exact", "statement": "The spectral integral of f over a coordinate surface of a Cartesian patch equals the iterated integral of the polynomial through f*sqrt(det h), h the metric induced on the surface.", "quantifier": "all patches with at least two Chebyshev extrema points per direction and non-empty coordinate ranges, all field values, metrics, and all coordinate surfaces", "why_tests_cant": "all sizes, fields, metrics and surfaces", "anchors": ["Src/Main/Modules/Maths/Calculus/integration.c:f_xyz_dS_Cheb_Ext_Spec", "Src/Main/Modules/Maths/Calculus/det_h_xyzN1N2.c:det_h_xyzN1N2_Cheb_Ext"]}
{"id": "C65", "title": "Coordinate Jacobians invert each other", "statement": "The derivatives of x,y,z by the normalised coordinates that the library returns form the two-sided inverse of the matrix of the derivatives of the normalised coordinates by x,y,z.", "quantifier": "all patch Jacobians with non-zero determinant, all ranges", "why_tests_cant": "all Jacobians", "anchors": ["Src/Main/Modules/Manifold/coordinate_systems.c:dq2_dq1", "Src/Main/Modules/Manifold/coordinate_systems.c:dq_dN", "Src/Main/Modules/Manifold/coordinate_systems.c:dN_dq"]}
{"id": "C66", "title": "Composite Simpson rule", "statement": "The composite Simpson rule on an odd number (at least 3) of equispaced values of a cubic gives its integral; an even number of points stops the program, one point gives no number.", "quantifier": "all intervals, odd sizes and cubics", "why_tests_cant": "all sizes and intervals", "anchors": ["Src/Main/Modules/Maths/Calculus/integration.c:Composite_Simpson_1D"]}
{"id": "C67", "title": "Gauss-Chebyshev quadrature", "statement": "The Gauss-Chebyshev quadrature on n extrema gives the weighted integral of every polynomial of degree below 2n-2.", "quantifier": "all sizes and polynomials", "why_tests_cant": "all sizes; undefined behaviour is invisible to tests", "anchors": ["Src/Main/Modules/Maths/Calculus/integration.c:GaussQuadrature_ChebyshevExtrema", "Src/Main/Modules/Maths/Calculus/integration.c:GaussQuadrature_Lobatto", "Src/Main/Modules/Maths/Calculus/integration.c:GaussQuadrature_Legendre", "Src/Main/Modules/Maths/Special_Functions/misc_functions.c:Factorial"]}
{"id": "C68", "title": "Spectral filter damps coefficients consistently", "statement": "The spectral filter multiplies each Chebyshev coefficient of a field by a factor depending on its orders only, 1 for order zero, 0 for the highest order and in between otherwise, and leaves cached coefficients equal to those of the new values.", "quantifier": "all patches with at least two Chebyshev extrema points per direction and non-empty coordinate ranges, all field values, all filter strengths", "why_tests_cant": "all sizes and values", "anchors": ["Src/Main/Modules/Maths/Spectral_Methods/spectral_filter.c:filter_erfclog", "Src/Main/Modules/Maths/Spectral_Methods/spectral_filter.c:erfclog"]}
{"id": "C69", "title": "Polytropic EoS is thermodynamically consistent", "statement": "For an enthalpy h >= 1 + 1e-12 a polytropic equation of state returns density, pressure, energy density and specific internal energy with p = K rho^Gamma, e = rho + p/(Gamma-1), h = (e+p)/rho, e0 = e/rho - 1; within 1e-12 of h = 1 all four vanish; Gamma within 1e-12 of 1, or several exponents, are refused.", "quantifier": "all exponents above 1, all K > 0, all enthalpies", "why_tests_cant": "real-valued inputs", "anchors": ["Src/Main/Modules/Physics/EoS/eos_polytropics.c:EoS_p_h_p", "Src/Main/Modules/Physics/EoS/eos_polytropics.c:EoS_rho0_h_p", "Src/Main/Modules/Physics/EoS/eos_polytropics.c:EoS_e_h_p", "Src/Main/Modules/Physics/EoS/eos_polytropics.c:EoS_e0_h_p", "Src/Main/Modules/Physics/EoS/eos_main.c:populate_EoS"]}
{"id": "C70", "title": "Polytropic EoS derivatives are derivatives", "statement": "Above h = 1 + 1e-12, drho0_dh and de_dh of a polytropic equation of state are the derivatives of the density and energy density it returns, and dp/dh equals the density.", "quantifier": "all exponents above 1, all K > 0, all enthalpies above 1 + 1e-12", "why_tests_cant": "real-valued inputs; a limit", "anchors": ["Src/Main/Modules/Physics/EoS/eos_polytropics.c:EoS_drho0_dh_h_p", "Src/Main/Modules/Physics/EoS/eos_polytropics.c:EoS_de_dh_h_p"]}
{"id": "C71", "title": "Piecewise polytrope is continuous across its thresholds", "statement": "From a table of at least two pieces with exponents above 1, K0 > 0 and positive increasing threshold densities a piecewise polytrope is built whose threshold enthalpies increase and whose neighbouring pieces agree in pressure, energy density and enthalpy at every threshold density.", "quantifier": "all such tables of any length", "why_tests_cant": "all tables of any length, real-valued", "anchors": ["Src/Main/Modules/Physics/EoS/eos_main.c:fill_n", "Src/Main/Modules/Physics/EoS/eos_main.c:fill_K", "Src/Main/Modules/Physics/EoS/eos_main.c:fill_a", "Src/Main/Modules/Physics/EoS/eos_main.c:fill_h_th", "Src/Main/Modules/Physics/EoS/eos_main.c:populate_EoS"]}
{"id": "C72", "title": "Piecewise polytrope evaluates the right piece", "statement": "Away from thresholds by more than 1e-12 the six functions of a piecewise polytrope return the values and derivatives of the piece the enthalpy falls in (and dp/dh = rho); at a threshold the tabulated density; a piece is found at every enthalpy that is not exactly 1e-12 away from a threshold.", "quantifier": "all tables as in C71, all enthalpies above 1 + 1e-12", "why_tests_cant": "all tables and enthalpies", "anchors": ["Src/Main/Modules/Physics/EoS/eos_polytropics.c:find_threshold_number_h", "Src/Main/Modules/Physics/EoS/eos_polytropics.c:EoS_p_h_pwp", "Src/Main/Modules/Physics/EoS/eos_polytropics.c:EoS_rho0_h_pwp", "Src/Main/Modules/Physics/EoS/eos_polytropics.c:EoS_e_h_pwp", "Src/Main/Modules/Physics/EoS/eos_polytropics.c:EoS_e0_h_pwp", "Src/Main/Modules/Physics/EoS/eos_polytropics.c:EoS_drho0_dh_h_pwp", "Src/Main/Modules/Physics/EoS/eos_polytropics.c:EoS_de_dh_h_pwp"]}
{"id": "C73", "title": "Malformed piecewise polytrope tables are refused", "statement": "A piecewise polytrope whose thresholds are out of order, too few, or whose exponent is 1 is refused with an error.", "quantifier": "all tables", "why_tests_cant": "all tables of any length", "anchors": ["Src/Main/Modules/Physics/EoS/eos_main.c:populate_EoS", "Src/Main/Modules/Physics/EoS/eos_main.c:fill_n", "Src/Main/Modules/Physics/EoS/eos_polytropics.c:find_threshold_number_h"]}
{"id": "C74", "title": "Tabular EoS is consistent and reproduces the table", "statement": "The tabular equation of state converts units with factors equal to those of the quoted constants (relative 1e-15), evaluates at the enthalpy moved into [floor, ceiling], returns non-negative pressure and energy, a density with rho0 h = e + p and e = rho0(1+e0), and returns the tabulated pressure and energy at tabulated enthalpies if its interpolant passes through its points.", "quantifier": "all tables of at least four rows, all interpolants, all enthalpies", "why_tests_cant": "all tables and enthalpies", "anchors": ["Src/Main/Modules/Physics/EoS/eos_tabular.c:logy_of_logh_hermite", "Src/Main/Modules/Physics/EoS/eos_tabular.c:rho0_e_p_h", "Src/Main/Modules/Physics/EoS/eos_tabular.c:e0_of_e_and_rho0", "Src/Main/Modules/Physics/EoS/eos_tabular.c:eos_tab_read_table", "Src/Main/Modules/Physics/EoS/eos_tabular.c:eos_tab_set_hermite_log"]}
{"id": "C75", "title": "Tabular EoS derivatives are derivatives", "statement": "de_dh and drho0_dh of the tabular equation of state are the derivatives of the energy density and density it returns.", "quantifier": "all tables, all differentiable interpolants, all enthalpies strictly between floor and ceiling with positive pressure and energy", "why_tests_cant": "a limit, for all tables", "anchors": ["Src/Main/Modules/Physics/EoS/eos_tabular.c:dp_dh_hermite_log", "Src/Main/Modules/Physics/EoS/eos_tabular.c:de_dh_hermite_log", "Src/Main/Modules/Physics/EoS/eos_tabular.c:drho0_dh_e_p_h"]}
{"id": "C76", "title": "Neville interpolation is the interpolating polynomial", "statement": "Neville 1-D interpolation returns, at any h, the value of the polynomial through the given points; when max of the N points are asked for, of the polynomial through max of them spread over the data.", "quantifier": "all N, max, all distinct abscissae, all values, all h", "why_tests_cant": "all sizes and real data", "anchors": ["Src/Main/Modules/Maths/Spectral_Methods/interpolations.c:interpolation_Neville_1d"]}
{"id": "C77", "title": "Natural cubic spline interpolation", "statement": "The 1-D cubic spline accepts increasing or decreasing abscissae, and returns the value (and slope) of the natural cubic spline through the points: C2, zero second derivative at the ends, the given values at the points, a straight line for data on a line; outside the points it returns DBL_MAX.", "quantifier": "all numbers of points, abscissae more than 1e-12 apart, values, evaluation points not exactly 1e-12 from a given point", "why_tests_cant": "all sizes and real data; a differentiability statement", "anchors": ["Src/Main/Modules/Maths/Spectral_Methods/interpolations.c:order_arrays_natural_cubic_spline_1d", "Src/Main/Modules/Maths/Spectral_Methods/interpolations.c:find_coeffs_natural_cubic_spline_1d", "Src/Main/Modules/Maths/Spectral_Methods/interpolations.c:interpolation_natural_cubic_spline_1d", "Src/Main/Modules/Maths/Spectral_Methods/interpolations.c:derivative_natural_cubic_spline_1d"]}
{"id": "C78", "title": "Hermite interpolation matches values and slopes", "statement": "Hermite 1-D interpolation with n points returns the value at h of the polynomial of degree < 2n that has the given values and slopes at the n points starting with the interval of h, reproduces the data, and stops the program when fewer than n points remain; slopes that are not given come from finite differences of the requested accuracy, so that polynomials of degree <= accuracy and < 2n are reproduced; no points, too many points, or neither slopes nor accuracy are refused.", "quantifier": "all numbers of points, increasing abscissae, values, slopes, n, h", "why_tests_cant": "all sizes and real data; a differentiability statement", "anchors": ["Src/Main/Modules/Maths/Spectral_Methods/interpolations.c:plan_interpolation", "Src/Main/Modules/Maths/Spectral_Methods/interpolations.c:order_arrays_Hermite_1d", "Src/Main/Modules/Maths/Spectral_Methods/interpolations.c:find_coeffs_Hermite_1d", "Src/Main/Modules/Maths/Spectral_Methods/interpolations.c:interpolation_Hermite_1d", "Src/Main/Modules/Maths/Spectral_Methods/interpolations.c:derivative_Hermite_1d_ncs", "Src/Main/Modules/Maths/Spectral_Methods/interpolations.c:set_derivative_array_Hermite_1d"]}
{"id": "C79", "title": "Finite differences are exact to their order", "statement": "finite_difference_Fornberg for derivative order M and accuracy acc uses acc+M consecutive grid points around x0 within the grid, and returns the exact M-th derivative at x0 of every polynomial of degree < acc+M, on any grid of distinct points; too few points are refused.", "quantifier": "all grids of distinct points, all M, all acc >= 1 with acc+M <= 100, all x0, all polynomials", "why_tests_cant": "all grids and orders; a derivative statement", "anchors": ["Src/Main/Modules/Maths/Calculus/derivatives.c:finite_difference_Fornberg"]}
{"id": "C80", "title": "Smoothed piecewise polytrope", "statement": "The spline version of a piecewise polytrope returns 0 at and below the enthalpy floor, never a value below -1e-12, the sampled value at every sample above the floor, and the natural cubic spline through the samples elsewhere above the floor.", "quantifier": "all sample tables, floors and enthalpies", "why_tests_cant": "all tables and enthalpies", "anchors": ["Src/Main/Modules/Physics/EoS/eos_polytropics.c:EoS_p_h_pwp_ncs", "Src/Main/Modules/Physics/EoS/eos_polytropics.c:EoS_rho0_h_pwp_ncs", "Src/Main/Modules/Physics/EoS/eos_polytropics.c:EoS_e_h_pwp_ncs"]}
{"id": "C81", "title": "Patch coordinates and Cartesian coordinates are inverse of each other", "statement": "x_of_X gives, for coordinates (X,Y,Z) of a cubed-spherical patch of any side and type, the Cartesian point on the ray of (X,Y) at the height at fraction Z between the inner and outer surface; X_of_x gives the coordinates back; a point that X_of_x accepts is reproduced within 1e-12 relative; a Cartesian patch is its box up to 1e-8.", "quantifier": "all sides, all patch types, all centres, surfaces, boxes, points and precision factors", "why_tests_cant": "all real points and surfaces of six sides times six types", "anchors": ["Src/Main/Modules/Manifold/coordinate_utilities.c:x_of_X_CS_coord", "Src/Main/Modules/Manifold/coordinate_utilities.c:X_of_x_CS_coord", "Src/Main/Modules/Manifold/coordinate_utilities.c:X_of_x_precision", "Src/Main/Modules/Manifold/coordinate_utilities.c:x_of_X_precision", "Src/Main/Modules/Manifold/cubed_spherical_coordinate.c:SignAndIndex_permutation_CubedSphere"]}
{"id": "C82", "title": "The six sides cover space and a point is located", "statement": "Every point other than the centre lies on exactly one side of the cube except on its edges, the sides' axes are right-handed; x_in_which_patch and X_in_which_patch return the first accepting patch or none, and every point inside one of six patches around a centre is located.", "quantifier": "all points, centres, lists of patches", "why_tests_cant": "all points of space and all patch lists", "anchors": ["Src/Main/Modules/Manifold/coordinate_utilities.c:x_in_which_patch", "Src/Main/Modules/Manifold/coordinate_utilities.c:X_in_which_patch", "Src/Main/Modules/Manifold/cubed_spherical_coordinate.c:SignAndIndex_permutation_CubedSphere"]}
{"id": "C83", "title": "The stored Jacobian is the derivative of the patch coordinates", "statement": "For every side and type of cubed-spherical patch the Jacobian function returns the partial derivative of each patch coordinate along each Cartesian axis, and the determinant of the matrix is 1/(h^2 dh/dZ).", "quantifier": "all sides, types, nodes, differentiable surfaces", "why_tests_cant": "a differentiability statement over all real nodes and surfaces", "anchors": ["Src/Main/Modules/Manifold/cubed_spherical_coordinate.c:JT_OJ_T_SCS", "Src/Main/Modules/Manifold/cubed_spherical_coordinate.c:JT_OT_T_SCS", "Src/Main/Modules/Manifold/cubed_spherical_coordinate.c:JT_NS_T_CS_up", "Src/Main/Modules/Manifold/cubed_spherical_coordinate.c:JT_SR_T_CS_up", "Src/Main/Modules/Manifold/cubed_spherical_coordinate.c:JT_OT_T1_CS_up", "Src/Main/Modules/Manifold/cubed_spherical_coordinate.c:JT_OT_T2_CS_up", "Src/Main/Modules/Manifold/cubed_spherical_coordinate.c:R12_derivatives_SCS"]}
{"id": "C84", "title": "Polar angles of patch points", "statement": "arctan(y,x) is the angle of (x,y) in [0,2pi); theta_phi_of_XY_CS returns the polar angles of the ray of (X,Y); find_XYZ_and_patch_of_theta_phi_CS returns a patch and coordinates whose point is seen from the centre under the asked angles up to 1e-12 and finds every direction that a patch in the list describes.", "quantifier": "all sides, coordinates, angles, lists of patches", "why_tests_cant": "all real angles and coordinates", "anchors": ["Src/Main/Modules/Maths/General/general.c:arctan", "Src/Main/Modules/Maths/General/general.c:arctan_argument_signum", "Src/Main/Modules/Manifold/coordinate_utilities.c:theta_phi_of_XY_CS", "Src/Main/Modules/Manifold/coordinate_utilities.c:find_XYZ_and_patch_of_theta_phi_CS", "Src/Main/Modules/Manifold/coordinate_utilities.c:find_theta_phi_of_XYZ_CS"]}
{"id": "C85", "title": "Node search and forced location", "statement": "find_node returns the node at the given point if there is one; x_in_which_patch_force returns, among the patches whose box contains the point's coordinates within 1e-7, the one that needs the smallest displacement (the first of several) and coordinates inside its box, and none iff there is no such patch.", "quantifier": "all points, all node lists, all patch lists", "why_tests_cant": "all lists and real positions; minimality over all patches", "anchors": ["Src/Main/Modules/Manifold/coordinate_utilities.c:find_node", "Src/Main/Modules/Manifold/coordinate_utilities.c:x_in_which_patch_force"]}
{"id": "C86", "title": "The Schur complement solve solves the coupled system", "statement": "For every grid of patches with subdomain and interface points, if the sparse solver solves its systems and no matrix entry is dropped by the sparse format, the linear step returns x and y of every patch that solve B x + E y = f in every patch and the sum over the patches of F x + C y = g at every interface point; with dropped entries the equations hold up to the dropped terms, bounded by drop limit + 1e-12 per entry; a single patch solves B x = f.", "quantifier": "all numbers and sizes of patches, all matrices and right-hand sides over any commutative ring, null blocks included, int and long format", "why_tests_cant": "all sizes and matrices; the result is the composition of nine routines with index arithmetic over stacked blocks", "anchors": ["Src/Main/Modules/Maths/Equation_Solvings/solve_eqs_ddm_schur_complement.c:making_E_prime_and_f_prime", "Src/Main/Modules/Maths/Equation_Solvings/solve_eqs_ddm_schur_complement.c:making_F_by_E_prime", "Src/Main/Modules/Maths/Equation_Solvings/solve_eqs_ddm_schur_complement.c:making_F_by_f_prime", "Src/Main/Modules/Maths/Equation_Solvings/solve_eqs_ddm_schur_complement.c:making_sub_S_matrix", "Src/Main/Modules/Maths/Equation_Solvings/solve_eqs_ddm_schur_complement.c:compute_S_CCS_long", "Src/Main/Modules/Maths/Equation_Solvings/solve_eqs_ddm_schur_complement.c:compute_g_prime", "Src/Main/Modules/Maths/Equation_Solvings/solve_eqs_ddm_schur_complement.c:solve_Sy_g_prime", "Src/Main/Modules/Maths/Equation_Solvings/solve_eqs_ddm_schur_complement.c:compute_x", "Src/Main/Modules/Maths/Equation_Solvings/solve_eqs_ddm_schur_complement.c:solve_Bx_f"]}
{"id": "C87", "title": "The node numbering is a permutation: inner points, boundary points, interface points", "statement": "make_map_and_inv numbers the nodes of a patch so that map and inv are inverse permutations, the nodes off the faces come first in their order, then those on an inner or outer boundary, then the interface nodes, with the interface maps agreeing; it stops with an error exactly if a subface is internal or a face node is on no subface.", "quantifier": "all patch sizes (n0 n1 n2 < 2^32), all lists of subfaces with repeated and shared nodes", "why_tests_cant": "all sizes and all ways of covering the faces", "anchors": ["Src/Main/Modules/Maths/Equation_Solvings/solve_eqs_ddm_schur_complement.c:make_map_and_inv", "Src/Main/Modules/Maths/Equation_Solvings/solve_eqs_ddm_schur_complement.c:OnFace"]}
{"id": "C88", "title": "Interface equations and their matrix agree", "statement": "make_g sums at every interface node the jumps (value minus neighbour's value, or neighbour's normal derivative minus own) over the subface points there, collocated or interpolated; the blocks F and C that making_F_and_C assembles, applied to any fields, give the g of these fields.", "quantifier": "all grids of patches with any subfaces, all fields, all linear derivative and interpolation operators with matching Jacobians", "why_tests_cant": "all grids and fields; sign, node and neighbour bookkeeping over pairs of patches", "anchors": ["Src/Main/Modules/Maths/Equation_Solvings/solve_eqs_ddm_schur_complement.c:make_g", "Src/Main/Modules/Maths/Equation_Solvings/solve_eqs_ddm_schur_complement.c:make_pg", "Src/Main/Modules/Maths/Equation_Solvings/solve_eqs_ddm_schur_complement.c:pg_collocation", "Src/Main/Modules/Maths/Equation_Solvings/solve_eqs_ddm_schur_complement.c:pg_interpolation", "Src/Main/Modules/Maths/Equation_Solvings/solve_eqs_ddm_schur_complement.c:making_F_and_C", "Src/Main/Modules/Maths/Equation_Solvings/solve_eqs_ddm_schur_complement.c:fill_C_F_collocation", "Src/Main/Modules/Maths/Equation_Solvings/solve_eqs_ddm_schur_complement.c:fill_C_F_interpolation", "Src/Main/Modules/Maths/Equation_Solvings/solve_eqs_ddm_schur_complement.c:mirror_pairs"]}
{"id": "C89", "title": "The update subtracts the relaxed correction at each node once", "statement": "update_field sets every node of the patch to old - lambda times the correction of that node, the backup to the old field; update_field_single_patch likewise and leaves other nodes.", "quantifier": "all fields, numberings, corrections and relaxation factors", "why_tests_cant": "all permutations and sizes", "anchors": ["Src/Main/Modules/Maths/Equation_Solvings/solve_eqs_ddm_schur_complement.c:update_field", "Src/Main/Modules/Maths/Equation_Solvings/solve_eqs_ddm_schur_complement.c:update_field_single_patch"]}
{"id": "C90", "title": "A Newton step solves the linearised equations; jumps shrink by (1-lambda)^k", "statement": "With an exact sparse solver and nothing dropped, one Newton step on a grid of patches subtracts lambda times the solution of the equations linearised at the current fields; after k steps the interface jumps are (1-lambda)^k times the initial ones, and for affine equations so are the residuals; lambda = 1 reaches the solution of an affine problem in one step.", "quantifier": "all grids, fields, equations, relaxation factors, numbers of steps", "why_tests_cant": "all k, grids and equations", "anchors": ["Src/Main/Modules/Maths/Equation_Solvings/solve_eqs_ddm_schur_complement.c:solve_field", "Src/Main/Modules/Maths/Equation_Solvings/solve_eqs_ddm_schur_complement.c:update_field", "Src/Main/Modules/Maths/Equation_Solvings/solve_eqs_ddm_schur_complement.c:making_B_and_E", "Src/Main/Modules/Maths/Equation_Solvings/solve_eqs_ddm_schur_complement.c:making_F_and_C"]}
{"id": "C91", "title": "The Newton loop ends and its end is meaningful", "statement": "The loop makes at most solve_Max_Newton_Step steps; it ends with an abnormal residual, at the step limit, or with all residuals finite and not above the goal; the residual is the root mean square of f and g; for affine equations the recorded history is |1-lambda|^k times the initial residual.", "quantifier": "all residual sequences, step limits, goals; all grids for the history", "why_tests_cant": "all histories", "anchors": ["Src/Main/Modules/Maths/Equation_Solvings/solve_eqs_ddm_schur_complement.c:solve_field", "Src/Main/Modules/Maths/Equation_Solvings/solve_eqs_ddm_schur_complement.c:calculate_residual", "Src/Main/Modules/Maths/Equation_Solvings/solve_eqs.c:default_stop_criteria_solve_equations"]}
{"id": "C92", "title": "Grids the solver accepts can be solved", "statement": "A grid that passes checks_and_constraints can be assembled and solved without undefined behaviour.", "quantifier": "all grids", "why_tests_cant": "all grids; the failing ones read or write out of bounds", "anchors": ["Src/Main/Modules/Maths/Equation_Solvings/solve_eqs_ddm_schur_complement.c:checks_and_constraints", "Src/Main/Modules/Maths/Equation_Solvings/solve_eqs_ddm_schur_complement.c:fill_C_F_collocation", "Src/Main/Modules/Maths/Equation_Solvings/solve_eqs_ddm_schur_complement.c:make_g", "Src/Main/Modules/Maths/Equation_Solvings/solve_eqs_ddm_schur_complement.c:making_F_and_C_Regular", "Src/Main/Modules/Maths/Equation_Solvings/solve_eqs_ddm_schur_complement.c:making_E_prime_and_f_prime"]}
{"id": "C93", "title": "Christoffel symbols", "statement": "Christoffel_symbol_3d fills the 18 ordered components with 1/2 g^km(d_i g_mj + d_j g_mi - d_m g_ij) of the inverse metric and metric derivatives it reads, and no other component; when the inverse belongs to the metric this is the only torsion-free connection that annihilates the metric.", "quantifier": "all values of the inverse metric and of the metric derivatives at a node", "why_tests_cant": "an identity of polynomials in 24 unknowns with hand-ordered storage of symmetric components", "anchors": ["Src/Main/Modules/Maths/Diff_Geom/dg_Christoffel_symbol_3d.c:Christoffel_symbol_3d"]}
{"id": "C94", "title": "Ricci tensor and scalar", "statement": "Ricci_3d stores R_ab (a <= b) of the connection and derivatives it reads and their trace; for the connection of a metric the symmetric storage is the full Ricci tensor, which is symmetric.", "quantifier": "all connection components, derivatives, inverse metrics; all metrics with first and second derivatives", "why_tests_cant": "identities of polynomials in about 80 unknowns", "anchors": ["Src/Main/Modules/Maths/Diff_Geom/dg_Ricci_3d.c:Ricci_3d"]}
{"id": "C95", "title": "BSSN scaling of the metric", "statement": "scale_to_BSSN_metric_3d writes, where requested, the metric gt = psi^-4 g of determinant 1, its inverse and psi = (det g)^(1/12); the conformal Kerr-Schild data scale the metric they are given, and build the Kerr-Schild metric only if none is given.", "quantifier": "all symmetric metrics, all combinations of requested outputs", "why_tests_cant": "all metrics; the test for the missing metric is reached only with arguments the library itself does not pass", "anchors": ["Src/Main/Modules/Maths/Diff_Geom/dg_scale_to_BSSN_metric_3d.c:scale_to_BSSN_metric_3d", "Src/Main/Modules/Physics/Free_Data/fd_populate.c:fd_populate_gConf_igConf_dgConf_ConfKerrSchild"]}
{"id": "C96", "title": "The psi equation and its Jacobian", "statement": "At every node with psi != 0 the psi equation stores the residual D^2 psi - R psi/8 - K^2 psi^5/12 + A_ij A^ij psi^-7/8 + 2 pi E/psi (geometric part times the rescaling), and the Jacobian routine stores at (ijk,lmn) the derivative of that residual at ijk with respect to psi at lmn.", "quantifier": "all field values, all numbers of nodes, all differentiation matrices, all nodal values of psi", "why_tests_cant": "a derivative of a rational function in some forty unknowns for every patch size", "anchors": ["Src/Main/Modules/Physics/Equation/eq_XCTS_crv_ex_T1_ddm_eq_psi.c", "Src/Main/Modules/Physics/Equation/eq_XCTS_crv_ex_T1_ddm_Jac_eq_psi.c"]}
{"id": "C97", "title": "The lapse equation and its Jacobian", "statement": "At every node with psi != 0 the alphaPsi equation stores the residual of the XCTS lapse equation and the Jacobian routine stores its derivative with respect to the nodal values of alphaPsi.", "quantifier": "all field values, numbers of nodes, differentiation matrices", "why_tests_cant": "as C96", "anchors": ["Src/Main/Modules/Physics/Equation/eq_XCTS_crv_ex_T1_ddm_eq_alphaPsi.c", "Src/Main/Modules/Physics/Equation/eq_XCTS_crv_ex_T1_ddm_Jac_eq_alphaPsi.c"]}
{"id": "C98", "title": "The shift equations, A^ij and their Jacobians", "statement": "A^ij is psi^7/(2 alphaPsi) times the conformal Killing form of the shift, the shift residuals are the momentum constraint D_j A^ij - 2/3 psi^6 D^i K - 8 pi psi^4 J^i in units of 2 alphaPsi/psi^7, and the Jacobian entries are their derivatives with respect to the shift component solved for; the flat Jacobians are the same operator in flat space.", "quantifier": "all metrics, connections, Ricci tensors belonging to one metric; all shifts with first and second derivatives", "why_tests_cant": "identity that needs the commutator of covariant derivatives; hundreds of terms", "anchors": ["Src/Main/Modules/Physics/Equation/eq_XCTS_crv_ex_T1_ddm_eq_B0_U0.c", "Src/Main/Modules/Physics/Equation/eq_XCTS_crv_ex_T1_ddm_Jac_eq_B0_U0.c", "Src/Main/Modules/Physics/ADM/adm_AConfIJ_XCTS_MConfIJ0.c", "Src/Main/Modules/Physics/ADM/adm_AConfIJ_SCTT_MConfIJ0.c", "Src/Main/Modules/Physics/Equation/eq_XCTS_flt_ex_T1_ddm_Jac_eq_B0_U0.c"]}
{"id": "C99", "title": "Boundary conditions of the metric fields", "statement": "Outer boundary residuals vanish exactly at psi = 1, alphaPsi = 1, shift = boost velocity; the inner residual of psi vanishes exactly if the excision surface has zero outgoing expansion in the physical metric; inner residuals of alphaPsi and the shift vanish exactly at the prescribed data; the boundary Jacobians are the derivatives of these residuals.", "quantifier": "all field values with psi != 0, all unit normals, numbers of nodes, differentiation matrices", "why_tests_cant": "the horizon condition is a geometric statement about every surface and metric", "anchors": ["Src/Main/Modules/Physics/Equation/eq_XCTS_crv_ex_T1_ddm_bc_psi.c", "Src/Main/Modules/Physics/Equation/eq_XCTS_crv_ex_T1_ddm_Jac_bc_psi.c", "Src/Main/Modules/Physics/Equation/eq_XCTS_crv_ex_T1_ddm_bc_alphaPsi.c", "Src/Main/Modules/Physics/Equation/eq_XCTS_crv_ex_T2_ddm_bc_alphaPsi.c", "Src/Main/Modules/Physics/Equation/eq_XCTS_crv_ex_T1_ddm_bc_B0_U0.c"]}
{"id": "C100", "title": "Solved equations satisfy the ADM constraints", "statement": "The Hamiltonian and momentum constraint values the code reports are R - K_ij K^ij + K^2 - 16 pi rho and D_j(K^ij - g^ij K) - 8 pi j^i of the physical metric psi^4 g; they are -8/psi^5 times the psi residual and 1/(2 alphaPsi psi^3) times the shift residuals, so they vanish exactly where the XCTS equations are solved; both evaluation methods agree; K_ij and K^ij belong together and have trace K.", "quantifier": "all conformal metrics with derivatives, connections, psi, alphaPsi non-zero, trace-free A^ij, K, sources", "why_tests_cant": "the conformal transformation of the Ricci scalar and of the divergence for every geometry", "anchors": ["Src/Main/Modules/Physics/ADM/adm_ham_mom_from_scratch.c", "Src/Main/Modules/Physics/ADM/adm_ham_mom_from_identities.c", "Src/Main/Modules/Physics/ADM/adm_adm_KDD_by_AUU.c", "Src/Main/Modules/Physics/ADM/adm_adm_KUU_by_AUU.c", "Src/Main/Modules/Physics/ADM/adm_adm_KUU_by_KDD.c", "Src/Main/Modules/Physics/ADM/adm_adm_g.c"]}
{"id": "C101", "title": "The velocity potential equation is the continuity equation", "statement": "At every node of a star the residual stored for phi is psi^4 h/alpha times the divergence in the physical metric of the mass flux alpha rho0 ((D^i phi + W^i)/h - u0 beta^i), plus the polish term that is zero for coefficient 0 (first form: given alpha K = D_i beta^i), and the Jacobian routine stores the derivatives of that residual with respect to the nodal values of phi, including the condition at the star's centre.", "quantifier": "all conformal metrics with their connection, all density, enthalpy, lapse, conformal factor, shift, potential and divergence-free spin fields with derivatives; all numbers of nodes, differentiation matrices, interpolation weights", "why_tests_cant": "an identity between differential operators for every geometry and fluid", "anchors": ["Src/Main/Modules/Physics/Equation/eq_XCTS_crv_T1_ddm_eq_phi.c", "Src/Main/Modules/Physics/Equation/eq_XCTS_crv_T2_ddm_eq_phi.c", "Src/Main/Modules/Physics/Equation/eq_XCTS_crv_T1_ddm_Jac_eq_phi.c"]}
{"id": "C102", "title": "The surface condition of the velocity potential", "statement": "The boundary residual of phi at the star's surface vanishes exactly when no fluid crosses the surface in the corotating frame, and the boundary Jacobian is the derivative of the boundary residual, in each selectable form.", "quantifier": "all field values, normals and metrics, numbers of nodes, differentiation matrices", "why_tests_cant": "must hold for every metric; a flat-metric test passes", "anchors": ["Src/Main/Modules/Physics/Equation/eq_XCTS_crv_T1_ddm_bc_phi.c", "Src/Main/Modules/Physics/Equation/eq_XCTS_crv_T1_ddm_Jac_bc_phi.c", "Src/Main/Modules/Physics/Equation/eq_XCTS_crv_T3_ddm_bc_phi.c", "Src/Main/Modules/Physics/Equation/eq_XCTS_crv_T3_ddm_Jac_bc_phi.c"]}
{"id": "C103", "title": "The matter sources are projections of the perfect-fluid tensor", "statement": "At every node of a star the u0 the code stores makes the four-velocity built from the potential, the spin vector and the enthalpy a future-pointing unit vector of the spacetime metric, and the stored EConf, JConf and SConf are psi^6 times the energy density, momentum density and stress trace of the perfect fluid for the normal observer; the rescaled forms differ by exactly the stored scale factor.", "quantifier": "all semi-definite conformal metrics with their inverse, all positive psi, alpha psi, enthalpy; all potentials, spin vectors, shifts, EoS values", "why_tests_cant": "an identity between four-dimensional tensors for every geometry and fluid", "anchors": ["Src/Main/Modules/Physics/StressEnergy_Tensor/Tij_NS_ifluid_xcts_gConf_u0.c", "Src/Main/Modules/Physics/StressEnergy_Tensor/Tij_NS_ifluid_xcts_gConf_psi6E.c", "Src/Main/Modules/Physics/StressEnergy_Tensor/Tij_NS_ifluid_xcts_gConf_psi6J_Ui.c", "Src/Main/Modules/Physics/StressEnergy_Tensor/Tij_NS_ifluid_xcts_gConf_psi6S.c"]}
{"id": "C104", "title": "Enthalpy from the Euler first integral", "statement": "The Euler constant is -(h/u0 + V.dphi); the enthalpy update for a constant C stores a field whose Euler constant is C, gives back h from the constant of h, stores 1 where the formula has no real value, and the baryonic mass integrand uses the same enthalpy and vanishes outside matter.", "quantifier": "all field values at a node, all Euler constants, all equations of state", "why_tests_cant": "round trip through a quadratic root for every geometry, with a choice of branch", "anchors": ["Src/Main/Modules/Physics/StressEnergy_Tensor/Tij_NS_ifluid_xcts_gConf_enthalpy.c", "Src/Main/Modules/Physics/Star/star_NS_Euler_eq_const_current.c", "Src/Main/Modules/Physics/Star/star_NS_baryonic_gConf_mass.c"]}
{"id": "C105", "title": "The force balance equation makes the enthalpy stationary at the centre", "statement": "Along a line through the star's centre on which the Euler constant is constant, the value handed to the root finder is -2 d ln h, so the adjusted orbital parameter is the one for which the enthalpy has no gradient there.", "quantifier": "all differentiable fields, all orbital parameters, all constants", "why_tests_cant": "a statement about derivatives of every fluid configuration", "anchors": ["Src/Main/Modules/Physics/Star/star_NS_ifluid_gConf_force_bal.c", "Src/Main/Modules/Physics/Star/star_NS_ifluid_gConf_dLnGamma.c", "Src/Main/Modules/Physics/Star/star_NS.c:star_NS_idealfluid_gConf_root_force_bal"]}
{"id": "C106", "title": "Spin vector, inspiral velocity field and relaxed updates", "statement": "The spin vector is Omega x (r - centre) and divergence-free; the inspiral field is a rotation plus a dilation about the centre of mass and its stored first and second derivatives are its derivatives; relaxed updates stay between the old and the new value, keep fixed points, and a force balance change above ten percent is reduced tenfold.", "quantifier": "all points, spins, angular velocities, infall velocities, separations, centres, weights in [0,1]", "why_tests_cant": "for every point and parameter", "anchors": ["Src/Main/Modules/Physics/Star/star_NS.c:W_spin_vector_idealfluid", "Src/Main/Modules/Physics/ADM/adm_updates.c:adm_update_B1I_inspiral", "Src/Main/Cores/macros_lib.h:RELAX_UPDATE_FUNC"]}
{"id": "C107", "title": "One-dimensional Fourier transform round trip", "statement": "Transforming n equally spaced real values to Fourier coefficients and back gives the values, and the coefficients of a sampled trigonometric polynomial of degree below n/2 are its Fourier coefficients.", "quantifier": "all point counts, all values, all trigonometric polynomials", "why_tests_cant": "every size and every data vector; the failures sit at even sizes and at sizes no test runs", "anchors": ["Src/Main/Modules/Maths/Spectral_Methods/fourier_transformation.c:r2cft_1d_EquiSpaced_coeffs", "Src/Main/Modules/Maths/Spectral_Methods/fourier_transformation.c:c2rft_1d_EquiSpaced_values"]}
{"id": "C108", "title": "Two-dimensional Fourier interpolation and derivatives are exact", "statement": "On a doubly periodic grid, interpolation from the stored coefficients and the two derivative tables are exact for resolved trigonometric polynomials, interpolation reproduces the data at grid points, and the derivative tables are the derivatives of the interpolant.", "quantifier": "all grid sizes, all data, all interpolation points", "why_tests_cant": "every size, data and point", "anchors": ["Src/Main/Modules/Maths/Spectral_Methods/fourier_transformation.c:r2cft_2d_coeffs", "Src/Main/Modules/Maths/Spectral_Methods/fourier_transformation.c:r2cft_2d_interpolation", "Src/Main/Modules/Maths/Spectral_Methods/fourier_transformation.c:r2cft_2d_df_dphi0", "Src/Main/Modules/Maths/Spectral_Methods/fourier_transformation.c:r2cft_2d_df_dphi1"]}
{"id": "C109", "title": "Fourier interpolation on the sphere", "statement": "For data on (theta,phi) points including both poles, the double-covering Fourier representation interpolates and differentiates exactly every resolved function that is single valued on the sphere, with or without the coefficient improvement; an odd number of phi points is refused.", "quantifier": "all grid sizes, all resolved functions, all points of the sphere", "why_tests_cant": "every size, function and point", "anchors": ["Src/Main/Modules/Maths/Spectral_Methods/fourier_transformation.c:r2cft_2d_coeffs_S2", "Src/Main/Modules/Maths/Spectral_Methods/fourier_transformation.c:r2cft_2d_interpolation_S2", "Src/Main/Modules/Maths/Spectral_Methods/fourier_transformation.c:r2cft_2d_last_coeffs_max_mag_S2"]}
{"id": "C110", "title": "Harmonic index maps are bijections", "statement": "The map from (l,m) to an array position is one to one and onto the allocated range, both for 0<=m<=l and for -l<=m<=l, and the inverse map recovers (l,m); |m|>l stops the program.", "quantifier": "all l, m and maximum degrees", "why_tests_cant": "every degree and order; a collision silently overwrites a coefficient", "anchors": ["Src/Main/Modules/Maths/Spectral_Methods/spherical_harmonics_transformation.c:lm2n", "Src/Main/Modules/Maths/Spectral_Methods/spherical_harmonics_transformation.c:lm2n_Ylm", "Src/Main/Modules/Maths/Spectral_Methods/spherical_harmonics_transformation.c:n2lm_Ylm", "Src/Main/Modules/Maths/Spectral_Methods/spherical_harmonics_transformation.c:alloc_ClmYlm"]}
{"id": "C111", "title": "Legendre functions and spherical harmonics", "statement": "The associated Legendre functions are those of Rodrigues' formula (with the Condon-Shortley phase), the spherical harmonics are the orthonormal ones built from them, negative orders are (-1)^m times the conjugate, and the theta and phi derivatives are their derivatives; arguments out of range stop the program.", "quantifier": "all degrees and orders, all angles", "why_tests_cant": "every degree, order and angle; the recurrences are correct only by an identity in x", "anchors": ["Src/Main/Modules/Maths/Spectral_Methods/spherical_harmonics.c:associated_legendre", "Src/Main/Modules/Maths/Spectral_Methods/spherical_harmonics.c:d_associated_legendre_dtheta", "Src/Main/Modules/Maths/Spectral_Methods/spherical_harmonics.c:Ylm", "Src/Main/Modules/Maths/Spectral_Methods/spherical_harmonics.c:dYlm_dphi", "Src/Main/Modules/Maths/Spectral_Methods/spherical_harmonics.c:dYlm_dtheta"]}
{"id": "C112", "title": "Spherical-harmonic transform is exact for resolved data", "statement": "Gauss-Legendre quadrature with the program's weights integrates polynomials of degree below 2n exactly; the coefficients computed for data sampled from a function of harmonic degree at most Lmax are that function's coefficients, interpolation then gives the function everywhere, and the derivative tables are the derivatives of the interpolant.", "quantifier": "all degrees, all grid sizes with Ntheta>Lmax and Nphi>2Lmax, all resolved functions, all points", "why_tests_cant": "every function and size; exactness rests on orthogonality, not on samples", "anchors": ["Src/Main/Modules/Maths/Spectral_Methods/spherical_harmonics_transformation.c:get_Ylm_coeffs_GaussLegendre_EquiSpaced", "Src/Main/Modules/Maths/Spectral_Methods/spherical_harmonics_transformation.c:interpolation_Ylm", "Src/Main/Modules/Maths/Spectral_Methods/spherical_harmonics_transformation.c:df_dphi_Ylm", "Src/Main/Modules/Maths/Spectral_Methods/spherical_harmonics_transformation.c:df_dtheta_Ylm", "Src/Main/Modules/Maths/Spectral_Methods/spherical_harmonics_transformation.c:integrate_expImphi", "Src/Main/Modules/Maths/Spectral_Methods/legendre_root_and_weight_function.c:Legendre_weight_function"]}
{"id": "C113", "title": "The star equations are the TOV equations", "statement": "Profiles whose slopes in the enthalpy are those the program integrates satisfy the Tolman-Oppenheimer-Volkoff equations as functions of the radius, with the potential -log h + const; the isotropic radius and the factor sqrt(r/rbar) make the spatial metric conformally flat; and the Komar mass of such a star equals its ADM mass.", "quantifier": "all equations of state obeying the first law, all stars, all radii", "why_tests_cant": "an identity between differential equations for every equation of state and star", "anchors": ["Src/Projects/TOV_star/TOV_solution.c:dr_dh", "Src/Projects/TOV_star/TOV_solution.c:dm_dh", "Src/Projects/TOV_star/TOV_solution.c:drbar_dh", "Src/Projects/TOV_star/TOV_solution.c:calculate_phi", "Src/Projects/TOV_star/TOV_solution.c:Komar_mass_integrand", "Src/Projects/TOV_star/TOV_solution.c:ADM_mass_integrand"]}
{"id": "C114", "title": "The discrete star profile", "statement": "The profile runs from the centre (r=m=0) to the surface h=1 in strictly decreasing enthalpy, each step is one fourth-order Runge-Kutta step of the equations, the start near the centre is the leading behaviour of the regular solution, the number of points must be odd, and at the surface radius, conformal factor and potential are those of the exterior solution of the same mass.", "quantifier": "all equations of state, central enthalpies and numbers of points", "why_tests_cant": "every equation of state; the centre is a limit and the surface an identity", "anchors": ["Src/Projects/TOV_star/TOV_solution.c:solve_ODE_enthalpy_approach", "Src/Projects/TOV_star/TOV_solution.c:r_approx", "Src/Projects/TOV_star/TOV_solution.c:m_approx", "Src/Projects/TOV_star/TOV_solution.c:calculate_baryonic_mass", "Src/Projects/TOV_star/TOV_solution.c:isotropic_coords_transformation", "Src/Projects/TOV_star/TOV_solution.c:c_rbar"]}
{"id": "C115", "title": "The search finds the star of the requested mass", "statement": "The returned star has the mass reported, the status tells whether that is the requested mass within 1e-12 (otherwise the requested mass is replaced), and the search succeeds whenever the mass as a function of the central enthalpy is Lipschitz, starts below the request and reaches it at one of the trial enthalpies.", "quantifier": "all mass functions, all requested masses, all lengths of the two phases of the search", "why_tests_cant": "every equation of state and mass; termination within the iteration bound is an invariant argument", "anchors": ["Src/Projects/TOV_star/TOV_solution.c:TOV_solution", "Src/Projects/TOV_star/TOV_main.c:multiple_tov"]}
{"id": "C116", "title": "What the initial data reader looks up", "statement": "The index of a field is the place of its exact name in the documented list; interpolation calls the exporter of the system found in the checkpoint and of the option, up to letter case, and refuses anything else or an incomplete request; a parameter query of a written checkpoint returns the first parameter of that name up to case, or null.", "quantifier": "all names, requests and written checkpoint files", "why_tests_cant": "every name and every set of parameters", "anchors": ["Src/Projects/Initial_Data_Reader/idr_main.c:find_field_index", "Src/Projects/Initial_Data_Reader/idr_main.c:elliptica_id_reader_interpolate", "Src/Projects/Initial_Data_Reader/idr_main.c:elliptica_id_reader_init", "Src/Projects/Initial_Data_Reader/idr_main.c:get_param_double_from_checkpoint", "Src/Projects/Initial_Data_Reader/idr_main.c:set_param_from_evo", "Src/Main/Modules/Checkpoint/checkpoint.c:parameter_query_from_checkpoint"]}
{"id": "C117", "title": "The arrays handed to the evolution code", "statement": "On success the slot of each requested evolution name holds, point by point, the value of the field listed at the same place, interpolated in the patch that contains the point shifted by the centre of mass, all finite; the other slots are unchanged; it succeeds exactly when every point is found, every patch has every field, every evolution name is known and every value is finite. The thread safe call returns the same values.", "quantifier": "all grids, points, lists of names and centres of mass", "why_tests_cant": "every grid, point set and list of names", "anchors": ["Src/Projects/Initial_Data_Reader/idr_read_write.c:idr_find_XYZ_from_xyz", "Src/Projects/Initial_Data_Reader/idr_read_write.c:idr_interpolate_fields_and_save_in_array", "Src/Projects/Initial_Data_Reader/idr_read_write.c:idr_interpolate_field_thread_safe"]}
{"id": "C118", "title": "The files exchanged with the evolution code", "statement": "A written fields file read back with the project's macros gives the evolution names and finite values in order and nothing else; a file of coordinates is read back as exactly its points with their patches, and a wrong title, a coordinate that is not finite or a point outside the grid stops the program.", "quantifier": "all fields, points and file contents", "why_tests_cant": "every content and every corrupted title", "anchors": ["Src/Projects/Initial_Data_Reader/idr_read_write.c:idr_load_Cartesian_coordinates_from_file", "Src/Projects/Initial_Data_Reader/idr_read_write.c:idr_interpolate_fields_and_write_to_file", "Src/Projects/Initial_Data_Reader/idr_read_write.c:idr_new_binary_file_to_write", "Src/Projects/Initial_Data_Reader/idr_read_write.c:idr_close_file"]}
{"id": "C119", "title": "The black-hole metric is the boosted Kerr metric", "statement": "At every node off the disk of the hole the stored spatial metric is the spatial part of the Kerr metric in Kerr-Schild form of the given mass and spin parameter, its axis turned to the direction of the given dimensionless spin and boosted with the given velocity; the Kerr radius used exists and is unique; the set-up refuses spins above 1.", "quantifier": "all masses, spins, sub-luminal velocities, centres and nodes off the disk", "why_tests_cant": "a continuum of parameters and nodes; algebra of thousands of generated terms", "anchors": ["Src/Main/Modules/Physics/Free_Data/fd_KerrSchild_params.c:fd_KerrSchild_set_params", "Src/Main/Modules/Physics/Free_Data/fd_KerrSchild_g_dg_ddg_dddg.c:fd_kerr_schild_g_analytic", "Src/Main/Modules/Physics/Free_Data/fd_KerrSchild_R_X_Y_Z.c", "Src/Main/Modules/Physics/Free_Data/fd_KerrSchild_H_K0_K1_K2.c", "Src/Main/Modules/Physics/Free_Data/fd_KerrSchild_c_k0_k1_k2_kt.c"]}
{"id": "C120", "title": "Lapse and shift complete the four-metric", "statement": "The lapse, shift and inverse metric of the Kerr-Schild free data satisfy the 3+1 relations with the same boosted Kerr four-metric: g_0i = gamma_ij beta^j, g_00 = beta_i beta^i - alpha^2, 0 < alpha <= 1, and the inverse is the inverse.", "quantifier": "all masses >= 0, spins, velocities, nodes off the disk", "why_tests_cant": "a continuum of parameters and nodes", "anchors": ["Src/Main/Modules/Physics/Free_Data/fd_populate.c:fd_populate_alpha_KerrSchild", "Src/Main/Modules/Physics/Free_Data/fd_populate.c:fd_populate_beta_KerrSchild", "Src/Main/Modules/Physics/Free_Data/fd_KerrSchild_alpha.c", "Src/Main/Modules/Physics/Free_Data/fd_KerrSchild_beta.c"]}
{"id": "C121", "title": "The analytic derivatives of the black-hole metric", "statement": "The stored first and second derivative fields of the Kerr-Schild metric are the partial derivatives of the stored metric.", "quantifier": "all parameters, nodes off the disk, components and directions", "why_tests_cant": "limits; thousands of generated terms at a continuum of nodes", "anchors": ["Src/Main/Modules/Physics/Free_Data/fd_KerrSchild_g_dg_ddg_dddg.c:fd_kerr_schild_dg_analytic", "Src/Main/Modules/Physics/Free_Data/fd_KerrSchild_g_dg_ddg_dddg.c:fd_kerr_schild_ddg_analytic"]}
{"id": "C122", "title": "The third derivatives of the black-hole metric", "statement": "The stored third derivative fields of the Kerr-Schild metric are the partial derivatives of the stored second derivatives.", "quantifier": "all parameters, nodes off the disk, components and directions", "why_tests_cant": "limits; thousands of generated terms at a continuum of nodes", "anchors": ["Src/Main/Modules/Physics/Free_Data/fd_KerrSchild_g_dg_ddg_dddg.c:fd_kerr_schild_dddg_analytic", "Src/Main/Modules/Physics/Free_Data/fd_KerrSchild_H_K0_K1_K2.c"]}
{"id": "C123", "title": "The surface of the Kerr-Schild hole", "statement": "The excision surface found in each direction is the set of points of constant Kerr radius equal to the horizon radius.", "quantifier": "all holes, directions and distances", "why_tests_cant": "a continuum of directions and parameters", "anchors": ["Src/Main/Modules/Physics/Free_Data/fd_KerrSchild_BH_surface.c:fd_find_KerrSchild_BH_surface", "Src/Main/Modules/Physics/Free_Data/fd_KerrSchild_BH_surface.c:BH_surface_root_finder_eq"]}
{"id": "C124", "title": "Start-off mass and spin of a black hole", "statement": "From irreducible mass and dimensionless spin the start-off computes the Christodoulou mass, the spin parameter and the horizon radius of that Kerr hole; spins above 1 are refused.", "quantifier": "all irreducible masses and spins", "why_tests_cant": "a continuum of parameters", "anchors": ["Src/Main/Modules/Physics/BlackHole/bh_bh.c:bh_start_off_KerrSchild_general_s2", "Src/Main/Modules/Physics/BlackHole/bh_bh.c:bh_start_off_CloseKerrSchild_perfect_s2"]}
{"id": "C125", "title": "Extrinsic curvature of the Kerr-Schild free data", "statement": "From symmetric Christoffel symbols, inverse metric and shift derivatives the stored extrinsic curvature satisfies 2 alpha K_ij = D_i beta_j + D_j beta_i for all components, and trK is its trace with the inverse metric.", "quantifier": "all values of the input fields at a node, all components", "why_tests_cant": "a continuum of inputs to generated formulas", "anchors": ["Src/Main/Modules/Physics/Free_Data/fd_KerrSchild_Kij_trK.c"]}
{"id": "C126", "title": "Attenuation of the free data", "statement": "The attenuation factor is the documented function of the distance, lies in [0,1], is 1 at rmin for the ratio and 0 beyond rmax for the cut version; the attenuated metric is flat plus factor times (metric - flat), stays positive definite with its inverse stored; trK and lapse are multiplied by the same factor; non-positive radii stop the program.", "quantifier": "all metrics, radii, exponents and nodes", "why_tests_cant": "a continuum of metrics and nodes", "anchors": ["Src/Main/Modules/Physics/Free_Data/fd_populate.c:fd_modify_gConf_igConf_dgConf_to_w1flat_w2KS", "Src/Main/Modules/Physics/Free_Data/fd_populate.c:fd_modify_trK_to_wtrK_compute_dtrK", "Src/Main/Modules/Physics/Free_Data/fd_populate.c:f_exp_type1", "Src/Main/Modules/Physics/Free_Data/fd_populate.c:f_ratio_type1"]}
{"id": "C127", "title": "Conformal Kerr-Schild data", "statement": "psi^4 times the conformal metric is the Kerr-Schild metric, the conformal metric has unit determinant, is positive definite and has its inverse stored, alphaPsi is psi times the Kerr-Schild lapse and the shift is the Kerr-Schild shift.", "quantifier": "all holes of non-negative mass, all nodes off the disk", "why_tests_cant": "a continuum of parameters and nodes", "anchors": ["Src/Main/Modules/Physics/Free_Data/fd_populate.c:fd_populate_psi_alphaPsi_beta_ConfKerrSchild", "Src/Main/Modules/Physics/Free_Data/fd_populate.c:fd_populate_gConf_igConf_dgConf_ConfKerrSchild"]}
{"id": "C128", "title": "Schwarzschild data in isotropic and Painleve-Gullstrand coordinates", "statement": "The isotropic fields are those of the Schwarzschild metric in isotropic coordinates (areal radius psi^2 r), the Painleve-Gullstrand shift is sqrt(2M/r) along the radius with unit lapse and flat metric, the start-off radii are the horizons, and the Painleve-Gullstrand extrinsic curvature and its trace are the exact ones when the derivatives of the shift are.", "quantifier": "all masses, centres and nodes away from the centre", "why_tests_cant": "a continuum of nodes; limits", "anchors": ["Src/Main/Modules/Physics/Free_Data/fd_populate.c:fd_populate_psi_alphaPsi_beta_IsoSchild", "Src/Main/Modules/Physics/Free_Data/fd_populate.c:fd_beta_and_dbeta_PGSchild", "Src/Main/Modules/Physics/Free_Data/fd_PGSchild_Kij_trK.c", "Src/Main/Modules/Physics/BlackHole/bh_bh.c:bh_start_off_IsoSchild_perfect_s2", "Src/Main/Modules/Physics/BlackHole/bh_bh.c:bh_start_off_PGSchild_perfect_s2"]}
{"id": "C129", "title": "Surface integrands of the ADM momenta", "statement": "For every method with a physical surface term, the surface integrand of the ADM linear momentum is (K_ij - K gamma_ij) n^j of the physical metric and extrinsic curvature, and that of the angular momentum is the cross product of the position relative to the centre with it.", "quantifier": "all values of the fields at a node, all normals, components and centres", "why_tests_cant": "a continuum of field values through generated formulas", "anchors": ["Src/Main/Modules/Physics/Observe/obs_ADM_P_S_default.c", "Src/Main/Modules/Physics/Observe/obs_ADM_P_Stokes_constraint.c", "Src/Main/Modules/Physics/Observe/obs_ADM_P_Stokes_Rashti.c", "Src/Main/Modules/Physics/Observe/obs_ADM_J_S_default.c", "Src/Main/Modules/Physics/Observe/obs_ADM_J_Stokes_constraint.c"]}
{"id": "C130", "title": "Surface and volume parts of the ADM momenta fit together", "statement": "The surface integrand is the flux and the volume integrand the divergence of one and the same current in the physical metric: unconditionally for the Rashti momentum, and where the vacuum momentum constraint holds for the constraint versions of linear and angular momentum; so S+V results do not depend on where the surface is put.", "quantifier": "all conformal data of one metric at a node, all components", "why_tests_cant": "an identity between generated formulas over a continuum of geometries", "anchors": ["Src/Main/Modules/Physics/Observe/obs_ADM_P_Stokes_constraint.c", "Src/Main/Modules/Physics/Observe/obs_ADM_P_Stokes_Rashti.c", "Src/Main/Modules/Physics/Observe/obs_ADM_J_Stokes_constraint.c"]}
{"id": "C131", "title": "ADM mass integrands", "statement": "The surface-at-infinity integrand is n^i gamma^jk (d_k gamma_ij - d_i gamma_jk); the conformal volume integrand is the divergence of the vector whose flux is the surface integrand, up to the residual of the Hamiltonian constraint; the isotropic integrands are flux and divergence of grad psi (the latter times the attenuation).", "quantifier": "all conformal data of one metric at a node", "why_tests_cant": "a continuum of geometries", "anchors": ["Src/Main/Modules/Physics/Observe/obs_ADM_mass_S2.c", "Src/Main/Modules/Physics/Observe/obs_ADM_mass_SV_conformal.c", "Src/Main/Modules/Physics/Observe/obs_ADM_mass_SV_isotropic.c"]}
{"id": "C132", "title": "Komar mass", "statement": "The Komar surface integrand is the flux of D^i alpha - K^i_j beta^j, the volume integrand alpha(rho+S) - 2 j_i beta^i, and on stationary solutions of the constraints and the lapse equation 4 pi times the volume integrand is the divergence of the surface vector.", "quantifier": "all conformal data, lapse, shift and sources at a node", "why_tests_cant": "a continuum of geometries and gauges", "anchors": ["Src/Main/Modules/Physics/Observe/obs_Komar_mass.c"]}
{"id": "C133", "title": "Spin and centre integrands", "statement": "The spin integrands are x cross (K_ij - K gamma_ij/3) n^j and (K_ij - K gamma_ij/3) phi^i n^j, the latter equal to K_ij phi^i n^j for a tangential phi; the integrand of a star's centre is the Laplacian of psi times the coordinate distance.", "quantifier": "all conformal data, normals and Killing fields at a node", "why_tests_cant": "a continuum of field values", "anchors": ["Src/Main/Modules/Physics/Observe/obs_spin_inegrands_Campanelli.c", "Src/Main/Modules/Physics/Observe/obs_spin_inegrands_AKV.c", "Src/Main/Modules/Physics/Observe/obs_Rcenter_NS.c"]}
{"id": "C134", "title": "Ossokine form of the momentum", "statement": "The surface integrand is the flux of P^ij = psi^10 (K^ij - gamma^ij K), and the volume integrand is minus its coordinate divergence (times the attenuation) where the momentum constraint holds; they are meant to combine to the flux at infinity.", "quantifier": "all conformal data of one metric at a node", "why_tests_cant": "an identity over a continuum of geometries", "anchors": ["Src/Main/Modules/Physics/Observe/obs_ADM_P_Stokes_Ossokine.c", "Src/Main/Modules/Physics/Observe/obs_ADM_J_Stokes_Ossokine.c", "Src/Main/Modules/Physics/Observe/obs_calculate.c:calc_ADM_P"]}
{"id": "C135", "title": "Normals of the surface integrals", "statement": "The vector used as surface normal has unit length in its metric and is orthogonal to every tangent of the surface.", "quantifier": "all metrics, surfaces and tangent vectors", "why_tests_cant": "a continuum of metrics and surfaces", "anchors": ["Src/Main/Modules/Physics/Observe/obs_calculate.c:n_physical_metric_around", "Src/Main/Modules/Physics/Observe/obs_calculate.c:n_conformal_metric_around"]}
{"id": "C136", "title": "Region selection", "statement": "A comma separated region string selects exactly the patches that carry one of its words as a tag, in grid order; nothing selected or a word outside the dictionary stops the program; '.*' is the whole grid. Every layer of an object carries the object's name, exactly the last one its outer-boundary and exactly the first one its inner-boundary tag.", "quantifier": "all grids of tagged patches, all region strings, all numbers of layers", "why_tests_cant": "unboundedly many grids and region strings; substring matching inside tag strings", "anchors": ["Src/Main/Modules/Manifold/coordinate_utilities.c:collect_patches", "Src/Main/Modules/Manifold/coordinate_utilities.c:IsItCovering", "Src/Main/Modules/Manifold/cubed_spherical_coordinate.c:populate_CS_patch_SplitCS"]}
{"id": "C137", "title": "What an observable's quantity and method stand for", "statement": "For each quantity and method (matched case-insensitively) the observable is computed from exactly the documented volume regions, boundary surfaces on the documented side of the patches, metric and formula; all other combinations stop the program.", "quantifier": "all quantity and method strings, grid kinds and grids", "why_tests_cant": "unboundedly many strings and grids; four if-chains of several hundred lines", "anchors": ["Src/Main/Modules/Physics/Observe/obs_calculate.c:obs_calculate", "Src/Main/Modules/Physics/Observe/obs_calculate.c:calc_ADM_P", "Src/Main/Modules/Physics/Observe/obs_calculate.c:calc_ADM_J", "Src/Main/Modules/Physics/Observe/obs_calculate.c:calc_ADM_mass", "Src/Main/Modules/Physics/Observe/obs_calculate.c:calc_Kommar_mass"]}
{"id": "C138", "title": "Inventory of a split cubed spherical grid", "statement": "A grid consists of exactly the documented pieces (objects, surroundings, central boxes, outermost region) for the chosen kind and settings, every patch has its own name, the tags are well formed, and the patches marked as inner boundary are exactly the first layers around excised holes; the grid kind is found from its documented name.", "quantifier": "all numbers of splits, grid numbers, settings and kinds", "why_tests_cant": "unboundedly many split numbers and parameter strings", "anchors": ["Src/Main/Modules/Manifold/cubed_spherical_coordinate.c:fill_patches_Split_CubedSpherical_grid", "Src/Main/Modules/Manifold/cubed_spherical_coordinate.c:populate_CS_patch_SplitCS", "Src/Main/Modules/Manifold/cartesian_coordinate.c:populate_box_patch_SplitCS", "Src/Main/Modules/Manifold/coordinate_utilities.c:set_grid_kind"]}
{"id": "C139", "title": "Surface + volume methods cover the grid", "statement": "On every grid that is built, the volume part of an S+V method consists of exactly the patches outside the enclosed objects, each once, and the surface part of exactly the inner faces of the first layer around the enclosed objects, so nothing is missed or counted twice.", "quantifier": "all grids built from any splits and settings, all kinds and S+V methods", "why_tests_cant": "unboundedly many grids", "anchors": ["Src/Main/Modules/Physics/Observe/obs_calculate.c:calc_ADM_P", "Src/Main/Modules/Physics/Observe/obs_calculate.c:calc_ADM_J", "Src/Main/Modules/Physics/Observe/obs_calculate.c:calc_ADM_mass", "Src/Main/Modules/Manifold/cubed_spherical_coordinate.c:fill_patches_Split_CubedSpherical_grid"]}
{"id": "C140", "title": "The reported number", "statement": "An accepted observable is the sum of all its surface integrals and all its volume integrals with the documented signs and factors; no integrand is missing and every surface normal is made for the metric of the area element.", "quantifier": "all grids, accepted quantities and methods and values of the integrals", "why_tests_cant": "unboundedly many items and real values", "anchors": ["Src/Main/Modules/Physics/Observe/obs_calculate.c:obs_integral_SV", "Src/Main/Modules/Physics/Observe/obs_ADM_mass_SV_isotropic.c", "Src/Main/Modules/Physics/Observe/obs_Komar_mass.c"]}
{"id": "C141", "title": "Spin, centre and irreducible mass", "statement": "Spin is J - R x P and does not depend on the reference point; a hole's centre is the area average of its surface relative to the centre of mass; the irreducible mass is the non-negative root of A = 16 pi M^2.", "quantifier": "all vectors, surfaces with positive area", "why_tests_cant": "a continuum of values", "anchors": ["Src/Main/Modules/Physics/Observe/obs_calculate.c:define_spin_JRP", "Src/Main/Modules/Physics/Observe/obs_calculate.c:Rc_BH", "Src/Main/Modules/Physics/Observe/obs_BH_irreducible_mass_CS.c"]}
{"id": "C142", "title": "Chebyshev black hole filler", "statement": "At the nodes inside a hole the Chebyshev filler writes the values of one polynomial of degree at most five in the distance from the centre, with the prescribed central value and vanishing slope there and the field's value, slope, second and vanishing third derivative at the surface, so the filled field is twice differentiable across the surface; on a perfect sphere a node beyond the surface gets the surface value.", "quantifier": "all surface values, derivatives, radii and nodes", "why_tests_cant": "a continuum of fields and radii", "anchors": ["Src/Main/Modules/Physics/BlackHole/bh_bhf_ChebTn_filler.c:bh_bhf_ChebTn_extrapolate", "Src/Main/Modules/Physics/BlackHole/bh_bhfiller.c:bhf_ChebTn_general_S2_CS", "Src/Main/Modules/Physics/BlackHole/bh_bhfiller.c:bhf_ChebTn_Ylm_pefect_S2_CS"]}
{"id": "C143", "title": "Smoothing functions", "statement": "The smoother used by the fillers is 0 up to rmin, 1 from rmax on, monotone, point symmetric about the middle and four times differentiable everywhere; the quintic and septic polynomials join 0 and 1 with two, respectively three vanishing derivatives.", "quantifier": "all radii and all rmin < rmax", "why_tests_cant": "a continuum of radii; differentiability", "anchors": ["Src/Main/Modules/Physics/BlackHole/bh_bhf_polynomial_smoother.c:bh_bhf_poly_smoother", "Src/Main/Modules/Physics/BlackHole/bh_bhfiller.c:bh_bhf_smoother", "Src/Main/Modules/Physics/BlackHole/bh_bhfiller.c:polynomial5", "Src/Main/Modules/Physics/BlackHole/bh_bhfiller.c:polynomial7"]}
{"id": "C144", "title": "Radial derivatives of a field", "statement": "The radial first and second derivative computed from the Cartesian derivatives at a surface point are the derivatives of the field along the ray from the centre; the six second derivatives are stored without collision; the derivative fields are looked up under the documented names.", "quantifier": "all twice differentiable fields, centres, directions and radii; all field names", "why_tests_cant": "a continuum of fields; unboundedly many names", "anchors": ["Src/Main/Modules/Physics/BlackHole/bh_bhfiller.c:collect_names", "Src/Main/Modules/Physics/Star/star_NS_surface.c:collect_names", "Src/Main/Modules/Physics/BlackHole/bh_bhfiller.h:IJsymm3"]}
{"id": "C145", "title": "Matter extrapolation outside a star", "statement": "For every documented method the field joins its extrapolant at the star's surface: twice differentiable for poly2, inverse_r2, inverse_r2_expmr, inverse_r2_expmAr and exp2, continuously differentiable for inverse_r_expmr and inverse_r_expmAr, continuous for expmr; exp2 stops on a vanishing derivative and unknown methods stop the program.", "quantifier": "all fields, radii and method names", "why_tests_cant": "a continuum of fields; differentiability", "anchors": ["Src/Main/Modules/Physics/Star/star_NS_surface.c:star_NS_extrapolate", "Src/Main/Modules/Physics/Star/star_NS_surface.c:approx_poly2", "Src/Main/Modules/Physics/Star/star_NS_surface.c:approx_exp2", "Src/Main/Modules/Physics/Star/star_NS_surface.c:approx_inverse_r2_expmAr"]}
{"id": "C146", "title": "Exponential black hole fillers", "statement": "The exponential fillers join the field at the surface as their documentation says: C0, respectively C1, and decaying towards the centre.", "quantifier": "all fields and radii", "why_tests_cant": "a continuum of fields; differentiability", "anchors": ["Src/Main/Modules/Physics/BlackHole/bh_bhfiller.c:approx_expmr_C0", "Src/Main/Modules/Physics/BlackHole/bh_bhfiller.c:approx_r_expmr_C1"]}
{"id": "C147", "title": "Start-off of a black hole", "statement": "The initial radius, Christodoulou mass and spin parameter stored for a hole of given irreducible mass and dimensionless spin satisfy the Kerr relations (horizon radius, area 16 pi m^2, M^2 = m^2 + S^2/4m^2, a = chi M); too large a spin stops the program.", "quantifier": "all masses and spin vectors", "why_tests_cant": "a continuum of masses and spins", "anchors": ["Src/Main/Modules/Physics/BlackHole/bh_bh.c:bh_start_off_KerrSchild_general_s2", "Src/Main/Modules/Physics/BlackHole/bh_bh.c:bh_start_off_CloseKerrSchild_perfect_s2", "Src/Main/Modules/Physics/BlackHole/bh_bh.c:bh_start_off_IsoSchild_perfect_s2"]}
{"id": "C148", "title": "Tuning of a hole's radius", "statement": "Inside the tolerance or with zero weight the radius is untouched, else it is scaled by 1 - W (m/target - 1), and the surface-changed flag tells whether it changed; if the mass is proportional to the radius the iteration's error never grows, decreases geometrically and reaches the tolerance.", "quantifier": "all radii, masses, weights, tolerances and any number of iterations", "why_tests_cant": "unbounded iterations over a continuum", "anchors": ["Src/Main/Modules/Physics/BlackHole/bh_bh.c:bh_tune_BH_radius_irreducible_mass_perfect_s2"]}
{"id": "C149", "title": "Tuning of a hole's spin", "statement": "The current dimensionless spin is S/M^2 with the Christodoulou mass and never exceeds 1 in length; each component of the hole's angular velocity changes only when its deviation exceeds the tolerance, in proportion to it.", "quantifier": "all spins, masses, weights and tolerances", "why_tests_cant": "a continuum of values", "anchors": ["Src/Main/Modules/Physics/BlackHole/bh_bh.c:bh_tune_BH_chi_simple"]}
{"id": "C150", "title": "Centre-of-mass control", "statement": "When the linear momentum responds to a shift of the centre of mass as in a rotating system, one step leaves the fraction 1 - W of the momentum, in x and in y; momenta below the tolerance or above the threshold change nothing.", "quantifier": "all momenta, masses, angular velocities, weights", "why_tests_cant": "a continuum of values", "anchors": ["Src/Main/Modules/Physics/System/sys_tune.c:Px_ADM_is0_by_y_CM", "Src/Main/Modules/Physics/System/sys_tune.c:Py_ADM_is0_by_x_CM"]}
{"id": "C151", "title": "Euler constant and force balance updates", "statement": "The Euler constant is only moved, by the weight, to a root whose residual is small; the force balance moves its parameter between the old value and the root, with a tenth of the weight when they differ by more than ten percent.", "quantifier": "all guesses, roots, residuals and weights", "why_tests_cant": "a continuum of values", "anchors": ["Src/Main/Modules/Physics/Star/star_NS.c:star_NS_ifluid_gConf_find_EulerC_fix_baryon_mass", "Src/Main/Modules/Physics/Star/star_NS.c:force_balance_eq_root_finders"]}
{"id": "C152", "title": "Surface search along a ray", "statement": "The interval handed to the bisection contains the old surface, lies in the grid at both ends, has extent at most 5 to either side and brackets the surface h = 1; it is found whenever the star reaches in and ends within 500 steps of 1/100.", "quantifier": "all enthalpy functions along a ray", "why_tests_cant": "a continuum of functions", "anchors": ["Src/Main/Modules/Physics/Star/star_NS_surface.c:find_NS_surface_Ylm_bisect_CS", "Src/Main/Modules/Physics/Star/star_NS_surface.c:NS_surface_enthalpy_root_finder_eq", "Src/Main/Modules/Maths/Equation_Solvings/root_finders.c:root_finder_bisect_single"]}
{"id": "C153", "title": "Failed surface searches", "statement": "The program stops exactly at the interrupted search that exceeds the permitted number, counted over the whole history; until then the radii are those of the last uninterrupted search.", "quantifier": "all histories of searches", "why_tests_cant": "unbounded histories", "anchors": ["Src/Main/Modules/Physics/Star/star_NS_surface.c:find_NS_surface_Ylm_bisect_CS"]}
{"id": "C154", "title": "Vectors on the horizon", "statement": "The horizon's unit vector has unit length in the conformal metric, points outward, its stored derivative is its derivative, and the shift set there is the rotation plus the lapse along the unit normal; the star's spin field is a rotation.", "quantifier": "all metrics, positions, spins and lapses", "why_tests_cant": "a continuum of metrics", "anchors": ["Src/Main/Modules/Physics/BlackHole/bh_bh.c:bh_update_sConf_dsConf", "Src/Main/Modules/Physics/BlackHole/bh_bh.c:set_beta_inner_bc_alpha_omegaXr", "Src/Main/Modules/Physics/Star/star_NS.c:W_spin_vector_idealfluid"]}
{"id": "C155", "title": "Expansion of the horizon", "statement": "The expansion written on the horizon is psi^3/4 times the divergence of the physical unit normal plus K_ij S^i S^j minus K; the number reported is its largest absolute value.", "quantifier": "all conformal data and unit normals", "why_tests_cant": "a continuum of metrics; a generated expression of 60 terms", "anchors": ["Src/Main/Modules/Physics/BlackHole/bh_expansion_of_AH.c:bh_calculate_expansion_on_AH"]}
{"id": "C156", "title": "Data base of equations", "statement": "Registering equations succeeds exactly when names are short and differ (case ignored) within each data base; a look-up then returns the function registered under the name, in any case and whatever the order of registration, and stops the program if there is none. The program's own registrations succeed, and every equation has all of field equation, boundary condition and both Jacobians.", "quantifier": "all sequences of registrations, all names and letter cases", "why_tests_cant": "unboundedly many registrations and names", "anchors": ["Src/Main/Modules/Maths/Equation_Solvings/solve_manager.c:add_eq", "Src/Main/Modules/Maths/Equation_Solvings/solve_manager.c:get_field_eq", "Src/Main/Modules/Physics/Equation/eq_main.c:set_equation_params"]}
{"id": "C157", "title": "Documented equation types", "statement": "Each documented equation type selects the documented equations: Types 1-4 of the potential, Type 1 and 2 with an excised hole, the flat shift equations; the default parameters resolve.", "quantifier": "all types, fields and letter cases, all aliases", "why_tests_cant": "all spellings of all choices, independently of the parameters", "anchors": ["Src/Main/Modules/Physics/Equation/eq_main.c:set_equation_params", "Src/Main/Modules/Maths/Equation_Solvings/solve_manager.c:get_field_eq"]}
{"id": "C158", "title": "What is solved for, and where", "statement": "For each field of solve_Order, in order, the solver holds the functions registered for the equation its parameter names, and the alias field; a parameter without a region or an unknown equation stops the program; the equation is solved in the region after the comma, everywhere for \".*\" or when no grid is registered for the field.", "quantifier": "all parameter values, prefixes, field lists", "why_tests_cant": "unboundedly many parameter files", "anchors": ["Src/Main/Modules/Maths/Equation_Solvings/solve_manager.c:initialize_solving_man", "Src/Main/Modules/Physics/Equation/eq_solve.c:set_equation_grid", "Src/Main/Modules/Maths/Equation_Solvings/solve_eqs.c:get_grid_solve_equations", "Src/Main/Modules/Maths/Equation_Solvings/solve_eqs_ddm_schur_complement.c:ddm_schur_complement"]}
{"id": "C159", "title": "Relaxed outer loop", "statement": "Each round of the elliptic solve replaces every field of solve_Order, in every patch that has it, by W times the solver's result plus 1 - W times its value before the round, for any number of rounds and any solver; with a fixed solution the distance shrinks by 1 - W per round.", "quantifier": "all solvers, weights, fields, patches and numbers of rounds", "why_tests_cant": "unbounded rounds, arbitrary solvers", "anchors": ["Src/Main/Modules/Physics/Equation/eq_solve.c:eq_solve_elliptic_equation", "Src/Main/Modules/Physics/Equation/eq_solve.c:backup_fields", "Src/Main/Modules/Physics/Equation/eq_solve.c:update_fields_relaxed_scheme", "Src/Main/Modules/Maths/Equation_Solvings/solve_eqs.c:get_relaxation_factor_solve_equations"]}
{"id": "C160", "title": "Words of the control parameters", "statement": "The documented words of the momentum control, the force balance and the matter extrapolation act as documented in any letter case and in order; an unknown word stops the program before anything is changed.", "quantifier": "all parameter texts", "why_tests_cant": "unboundedly many texts", "anchors": ["Src/Main/Modules/Physics/System/sys_tune.c:sys_tune_ADM_momenta", "Src/Main/Modules/Physics/System/sys_tune.c:get_func_P_ADM_adjustment", "Src/Main/Modules/Physics/System/sys_tune.c:parse_adjust_parameter", "Src/Main/Modules/Physics/Star/star_NS.c:get_func_force_balance_adjustment", "Src/Main/Modules/Physics/Star/star_NS.c:star_NS_idealfluid_extrapolate_matter_fields"]}
{"id": "C161", "title": "First fields of a star", "statement": "Outside a star the first conformal factor and lapse are those of Schwarzschild in isotropic coordinates (both psi and alpha psi harmonic); inside, enthalpy times lapse is constant and both fields match at the surface of a TOV star; the spin velocity is a rotation; the velocity potential is that of the orbital motion of the star's centre.", "quantifier": "all masses, centres, spins, TOV tables and positions", "why_tests_cant": "a continuum of stars and positions; differential equations", "anchors": ["Src/Main/Modules/Physics/Star/star_NS.c:star_populate_psi_alphaPsi_matter_fields_TOV"]}
{"id": "C162", "title": "Centring of a star", "statement": "If the point of vanishing enthalpy gradient is found, centring by Taylor expansion leaves the fraction 1 - W of the gradient at the star's centre without changing the enthalpy there, and drawing by interpolation leaves the fraction 1 - W too and for W = 1 carries the profile over; if the search fails or the star is centred nothing changes.", "quantifier": "all enthalpies, weights, centres and search results", "why_tests_cant": "a continuum of fields; differentiability", "anchors": ["Src/Main/Modules/Physics/Star/star_NS.c:adjust_NS_center_Taylor_expansion", "Src/Main/Modules/Physics/Star/star_NS.c:adjust_NS_center_interpolation", "Src/Main/Modules/Physics/Star/star_NS.c:star_NS_find_where_denthalpy_is_0", "Src/Main/Modules/Physics/Star/star_NS.c:dh_dx0_root_finder_eq"]}
{"id": "C163", "title": "Commands of the physics interface", "statement": "Every command of the interface is sent to exactly one function, no two commands to the same one, unknown numbers stop the program, and after a command the current command is reset.", "quantifier": "all command numbers and former states", "why_tests_cant": "all integers; injectivity over all pairs", "anchors": ["Src/Main/Modules/Physics/phys_main.c:physics_main"]}
{"id": "C164", "title": "Objects of a system", "statement": "An object gets its kind, its text, its system from the project and its place from its grid_set parameter, up to letter case; every other project, object or place stops the program.", "quantifier": "all objects and parameter texts", "why_tests_cant": "unboundedly many texts", "anchors": ["Src/Main/Modules/Physics/phys_main.c:init_physics"]}
{"id": "C165", "title": "Region texts of an object", "statement": "A region text that names NS or BH is turned into the text of the asking object by indexing each occurrence; numbered texts, the whole grid and texts of other regions are kept, the texts of two objects are for the grids of these two only; adjusting twice is adjusting once.", "quantifier": "all texts, objects and systems", "why_tests_cant": "unboundedly many texts", "anchors": ["Src/Main/Modules/Physics/phys_main.c:phys_autoindex_stype", "Src/Main/Modules/Physics/phys_main.c:mygrid"]}
{"id": "C166", "title": "Words of the physics modules", "statement": "A command for a star, a hole or the stress energy calls the documented function exactly if the words of the parameters say so, in any letter case; otherwise nothing is called and the program stops.", "quantifier": "all parameter texts and commands", "why_tests_cant": "all combinations and spellings of the parameters", "anchors": ["Src/Main/Modules/Physics/Star/star_main.c:star_main", "Src/Main/Modules/Physics/BlackHole/bh_main.c:bh_main", "Src/Main/Modules/Physics/StressEnergy_Tensor/Tij_main.c:Tij_main"]}
{"id": "C167", "title": "First guess of the fields of a system", "statement": "The first guess of a single object is its solution; of two, psi and alpha psi are f1 + f2 - 1, matter is that of the star the node is in, the shift is the hole's or zero; auxiliary fields are gone afterwards and no other field is changed; any other pair of words stops the program.", "quantifier": "all solutions, nodes, former field stores and parameter texts", "why_tests_cant": "a continuum of values; all former stores", "anchors": ["Src/Main/Modules/Physics/System/sys_main.c:initialize_fields", "Src/Main/Modules/Utilities/useful_functions.c:superimpose_simple"]}
{"id": "C168", "title": "Free data belong together", "statement": "Whatever words are chosen and whatever the fields were before, afterwards the inverse metric, its derivatives, the Christoffel symbols with their derivatives, the Ricci tensor and trace, and the derivatives of the trace of the extrinsic curvature are those of the final metric and trace; the words select the documented metric and trace; other words stop the program.", "quantifier": "all words, systems, former stores and all operations", "why_tests_cant": "all combinations of words and a continuum of values", "anchors": ["Src/Main/Modules/Physics/Free_Data/fd_main.c:populate_free_data"]}
{"id": "C169", "title": "Norms", "statement": "root_square, the L2 and the L1 norm of a difference are metrics on arrays, a null pointer counting as zero; the L infinity norm is the largest magnitude; mean <= root mean square <= maximum; the scalar product is bounded by the product of the lengths.", "quantifier": "all arrays of all lengths", "why_tests_cant": "unbounded lengths and a continuum of values", "anchors": ["Src/Main/Modules/Maths/General/general.c:root_square", "Src/Main/Modules/Maths/General/general.c:L2_norm", "Src/Main/Modules/Maths/General/general.c:L1_norm", "Src/Main/Modules/Maths/General/general.c:L_inf", "Src/Main/Modules/Maths/General/general.c:dot", "Src/Main/Modules/Maths/General/general.c:MaxMag_d"]}
{"id": "C170", "title": "Derivatives named by their result", "statement": "The name of a derivative field determines the field derived and the direction: for every field name the name built by the convention is read back as that field and direction, so no name has two meanings.", "quantifier": "all field names and directions", "why_tests_cant": "unboundedly many names", "anchors": ["Src/Main/Modules/Maths/Calculus/derivatives.c:partial_derivative"]}
{"id": "C171", "title": "Derivatives by expressions", "statement": "After partial_derivative_regex every field matched is the derivative, in the direction its name says, of the final value of the field its name says, provided no source is written after it was used; nothing else changes; it succeeds exactly if each source is there with values when needed.", "quantifier": "all lists of expressions, matching functions, patches and orders of fields", "why_tests_cant": "all orders of the fields and all expressions", "anchors": ["Src/Main/Modules/Maths/Calculus/derivatives.c:partial_derivative_regex", "Src/Main/Modules/Maths/Calculus/derivatives.c:partial_derivative"]}
{"id": "C172", "title": "Fields carried to a new grid", "statement": "Interpolation gives each named field of the new grid at each node the interpolant of the old field at that position, exactly the function for fields the old grid resolves; copying gives the old values and demands equal patches; all else is unchanged, and success is exactly that every node is found and every field is there.", "quantifier": "all pairs of grids, fields, searches and interpolants", "why_tests_cant": "all grids and field lists; a continuum of positions", "anchors": ["Src/Main/Modules/Utilities/useful_functions.c:interpolate_fields_from_old_grid_to_new_grid"]}
{"id": "C173", "title": "Poisson test problem", "statement": "The reference field of the analysis solves the equation and its residual is the error of the numerical second derivatives in the inner mesh and zero on the boundary; the boundary residual vanishes exactly for fields with the boundary values; the first guess is off the solution by exp(-r)/10.", "quantifier": "all patches, node positions, layouts of the nodes and derivative arrays", "why_tests_cant": "a continuum of positions; all layouts", "anchors": ["Src/Projects/Poissons/Poisson0/poisson0_ddm_schur_eq_alpha.c:eq_alpha", "Src/Projects/Poissons/Poisson0/poisson0_ddm_schur_bc.c:bc_alpha", "Src/Projects/Poissons/Poisson0/poisson0_initial_data.c:poisson0_initial_data_alpha", "Src/Projects/Poissons/Poisson0/poisson0_analyze.c:poisson0_analyze_answer", "Src/Main/Modules/Maths/Equation_Solvings/solve_eqs_ddm_schur_complement.c:make_f"]}
{"id": "C174", "title": "Poisson Jacobian and Newton step", "statement": "The matrices given to the solver are the derivatives of the residual by the subdomain and by the interface values; the residual changes exactly by the Jacobian times the step, so one solved linear system solves the equation; the layout needed is the one the solver's numbering makes.", "quantifier": "all patches, layouts, derivative matrices, fields and steps", "why_tests_cant": "all matrices, fields and steps of all sizes", "anchors": ["Src/Projects/Poissons/Poisson0/poisson0_ddm_schur_jacobian_eq.c:jacobian_eq_alpha", "Src/Projects/Poissons/Poisson0/poisson0_ddm_schur_jacobian_bc.c:jacobian_bc_alpha", "Src/Main/Modules/Maths/Equation_Solvings/solve_eqs_ddm_schur_complement.c:making_B_and_E", "Src/Main/Modules/Includes/maths_equation_solvings_lib.h:DDM_SCHUR_JACOBIAN_EQ_Bpart_OPEN"]}
{"id": "C175", "title": "Reports on the difference of two fields", "statement": "The convergence test prints for each patch in order the maximum, the root mean square and the mean of the magnitude of the difference, each zero exactly if the fields agree at all nodes, L1 <= L2 <= Linf; pr_field_difference writes each node once in its patch's file and once in the grid's file, numbered through; the reports agree.", "quantifier": "all grids, resolutions and field values", "why_tests_cant": "unbounded grids and a continuum of values", "anchors": ["Src/Main/Modules/Maths/Field_Analysis/convergence_tests.c:analytic_numeric_convergence_test", "Src/Main/Modules/Prints/pr_for_tests.c:pr_field_difference"]}
