{"id": "C01", "title": "Marking only adds prefixes", "statement": "For any converted source text, the final marking pass returns a text with the same number of lines in the same order, where every line is either byte-identical to the input line or the input line with the single prefix '>>>>>>' in front of it.", "quantifier": "every source text, every set of recorded torch packages, both modes, every set of kept APIs", "why_tests_cant": "the text is arbitrary user code; a test covers a handful of files, while a lost or merged line would silently corrupt a user's program", "anchors": ["paconvert/converter.py:Converter.mark_unsupport"]}
{"id": "C02", "title": "Marking is reversible", "statement": "Removing one '>>>>>>' from the start of every line of the marked text that starts with it gives back the text before marking, provided no line of that text already started with '>>>>>>'.", "quantifier": "every source text with no line starting with the marker", "why_tests_cant": "round-trip law over all texts", "anchors": ["paconvert/converter.py:Converter.mark_unsupport"]}
{"id": "C03", "title": "Which lines are marked", "statement": "In default mode a line is marked exactly when (a) it is the first line after an annotation line containing 'Not Support auto convert' that is not itself such a line and is not just '@', or (b) it is not such a line, no triple-quoted region is open before or after it, and, after deleting closed string literals, it contains '<pkg>.' for a recorded torch package <pkg> at the very start or preceded by a character that is neither a word character nor a dot.", "quantifier": "every source text and every set of recorded torch packages", "why_tests_cant": "both directions (no use missed, no clean line marked) quantify over every line and every preceding context", "anchors": ["paconvert/converter.py:Converter.mark_unsupport"]}
{"id": "C04", "title": "Clean files are not marked", "statement": "A file for which no torch package was recorded and which contains no 'Not Support auto convert' text leaves the marking pass byte-identical.", "quantifier": "every source text, both modes", "why_tests_cant": "identity law over all texts", "anchors": ["paconvert/converter.py:Converter.mark_unsupport"]}
{"id": "C05", "title": "Min-mode masking keeps the layout", "statement": "In min mode the masked copy that is scanned has the same length as the source and the same newline positions, so scan line i always belongs to source line i and the pass never fails for lack of a scan line. Longer names are masked before shorter ones, and names of one length in the order they were kept, so a name is never half masked by its own prefix.", "quantifier": "every source text and every set of kept API names, in any order", "why_tests_cant": "the alignment must hold for every text and every sequence of masked names", "anchors": ["paconvert/converter.py:Converter.mask_change_prefix_apis", "paconvert/converter.py:Converter.mark_unsupport"]}
{"id": "C06", "title": "requirements.txt rewriting is complete and local", "statement": "The rewritten requirements file contains no occurrence of 'torch' at all, and it is the original with each left-to-right non-overlapping 'torch' replaced by 'paddlepaddle-gpu', all other characters kept in order.", "quantifier": "every requirements file content", "why_tests_cant": "absence of a substring after replacement must hold for every text, including overlaps created by the replacement itself", "anchors": ["paconvert/converter.py:Converter.transfer_file"]}
{"id": "C07", "title": "requirements.txt rewriting is package-precise (violated)", "statement": "Only the requirement named exactly torch should be renamed; other requirement names such as torchvision or torchaudio should remain installable names.", "quantifier": "every requirements file content", "why_tests_cant": "needs a statement on all package names; the code violates it", "anchors": ["paconvert/converter.py:Converter.transfer_file"]}
{"id": "C08", "title": "Helper code is emitted once, in order of first use", "statement": "After any sequence of helper registrations the helper block contains each distinct helper text (modulo trailing newlines) exactly once, ordered by first registration, and contains nothing else, whenever the hash function does not collide on the registered texts.", "quantifier": "every sequence of registrations of arbitrary texts, every hash function injective on them", "why_tests_cant": "quantifies over histories of any length and over the hash function", "anchors": ["paconvert/utils.py:UtilsFileHelper.add_code", "paconvert/utils.py:UtilsFileHelper._get_code_hash"]}
{"id": "C09", "title": "Helper registration survives hash collisions (violated)", "statement": "Registering a helper text should terminate and register a given text at most once even when the hash of different texts coincide.", "quantifier": "every hash function and every history of registrations", "why_tests_cant": "collisions cannot be produced on demand in a test; the probing loop does not advance, so it can spin forever, and a re-registered text can be stored twice", "anchors": ["paconvert/utils.py:UtilsFileHelper._get_code_hash", "paconvert/utils.py:UtilsFileHelper.add_code"]}
{"id": "C10", "title": "Helper insertion keeps the user's file", "statement": "In single-file mode, writing the helpers produces a file whose lines are: the first k lines of the converted file, then the helper block, then the remaining lines, all in order and unmodified; k is at most the number of lines.", "quantifier": "every existing file content and every set of helpers", "why_tests_cant": "splice law over all file contents", "anchors": ["paconvert/utils.py:UtilsFileHelper.write_code", "paconvert/utils.py:UtilsFileHelper._find_import_insert_idx"]}
{"id": "C11", "title": "Helpers are placed after the leading import block", "statement": "The insertion point k is right after the last line of an import statement (or 0), every line before k is blank, a comment, an import/from line, or a continuation of one, and the scan never looks past the end of the file nor loops forever.", "quantifier": "every list of lines, including unbalanced parentheses and trailing backslashes", "why_tests_cant": "loop termination and index bounds for every text", "anchors": ["paconvert/utils.py:UtilsFileHelper._find_import_insert_idx"]}
{"id": "C12", "title": "Helper writing is flush-once", "statement": "After the helpers have been written the registry is empty: a second write without new registrations changes nothing, and a helper registered again afterwards is written again.", "quantifier": "every history of registrations and writes", "why_tests_cant": "a property of all histories of two mutating operations", "anchors": ["paconvert/utils.py:UtilsFileHelper.write_code"]}
{"id": "C13", "title": "Separate conversions do not share helper files (violated)", "statement": "Each conversion run should write its helper code to its own output location.", "quantifier": "every sequence of two or more runs in one process with any output locations", "why_tests_cant": "depends on the history of runs in the process: the first run's location is kept forever", "anchors": ["paconvert/utils.py:UtilsFileHelper.__init__", "paconvert/utils.py:UtilsFileHelper.__new__", "paconvert/converter.py:Converter.run", "paconvert/main.py:main"]}
{"id": "C14", "title": "Generated temporary names never repeat", "statement": "Two different requests for a fresh name, with equal or different keys, never return the same name in one process.", "quantifier": "every sequence of requests with arbitrary keys", "why_tests_cant": "pairwise distinctness over unbounded histories, including cross-key clashes such as key 'out_1' against key 'out'", "anchors": ["paconvert/utils.py:UniqueNameGenerator.__call__", "paconvert/utils.py:get_unique_name"]}
{"id": "C15", "title": "Statement insertion is exact", "statement": "When all statements collected for a block are inserted, the block becomes the original statements in their original order with, directly before the original statement number i, exactly the statements recorded for i in recording order (and those recorded for i = length at the end).", "quantifier": "every block, every set of recorded positions within the block, any number of statements per position, any order of recording", "why_tests_cant": "quantifies over all blocks and all recording histories; an off-by-one from an earlier insertion shows only for particular combinations", "anchors": ["paconvert/base.py:BaseTransformer.insert_scope", "paconvert/base.py:BaseTransformer.record_scope"]}
{"id": "C16", "title": "Recording is duplicate-free across requests", "statement": "Recording the same helper statements for the same place a second time has no effect; a later batch never adds a statement whose dump already is recorded there; the earlier recorded statements stay, in order, as a prefix.", "quantifier": "every recording history", "why_tests_cant": "history property", "anchors": ["paconvert/base.py:BaseTransformer.record_scope"]}
{"id": "C17", "title": "Insertion position survives statement deletion (violated)", "statement": "A statement recorded in front of a given user statement should end up directly in front of that statement even if another statement of the same block was removed during the same pass.", "quantifier": "every block in which one statement is deleted and another receives inserted statements", "why_tests_cant": "needs the combination of a deletion and an insertion in one block; the recorded index is computed on the block before the traversal replaces its content", "anchors": ["paconvert/base.py:BaseTransformer.scope_body_index", "paconvert/base.py:BaseTransformer.insert_scope", "paconvert/transformer/basic_transformer.py:BasicTransformer.visit_Expr"]}
{"id": "C18", "title": "Insertion point lookup returns the enclosing statement", "statement": "When the lookup of the insertion point answers (block, field, i), the i-th entry of that field of an enclosing scope is an ancestor-or-self of the current expression; when it cannot be found in the innermost scope nor the next one the lookup does not return normally (it recurses until the interpreter's limit).", "quantifier": "every stack of enclosing nodes and scopes", "why_tests_cant": "quantifies over nesting shapes of arbitrary depth", "anchors": ["paconvert/base.py:BaseTransformer.scope_body_index"]}
{"id": "C19", "title": "Traversal bookkeeping is balanced", "statement": "After visiting any tree the stack of enclosing nodes and the stack of enclosing scopes are exactly what they were before the visit, and during the visit the parent seen by every visitor is the real parent.", "quantifier": "every syntax tree", "why_tests_cant": "structural induction over all trees", "anchors": ["paconvert/base.py:BaseTransformer.visit", "paconvert/base.py:BaseTransformer.visit_FunctionDef"]}
{"id": "C20", "title": "Argument binding is faithful", "statement": "When a call is accepted, the parsed argument table maps the i-th positional argument to the i-th positional parameter name of the mapping table and each keyword to its own name, with the source text of the corresponding expression, and contains nothing else (the only dropped arguments are unsupported ones passed as the literal None).", "quantifier": "every call (any number of positional and keyword arguments) and every mapping-table entry", "why_tests_cant": "quantifies over all calls times all table entries", "anchors": ["paconvert/base.py:BaseMatcher.parse_args_and_kwargs"]}
{"id": "C21", "title": "Argument parsing never indexes out of range", "statement": "Parsing the arguments of any call against any table entry returns a table, 'unsupported' or 'not a torch API'; it never raises because a call has more positional arguments than the entry has positional parameters.", "quantifier": "every call and every table entry", "why_tests_cant": "bounds argument over all calls and entries, with a count that keyword arguments can shift", "anchors": ["paconvert/base.py:BaseMatcher.parse_args_and_kwargs"]}
{"id": "C22", "title": "Unsupported arguments are never silently accepted (violated in one shape)", "statement": "A call that passes an unsupported argument with a value other than the literal None should be rejected, never converted.", "quantifier": "every call and every table entry", "why_tests_cant": "the failing shape needs two specific adjacent keywords: deleting from the list being iterated skips the next one", "anchors": ["paconvert/base.py:BaseMatcher.parse_args_and_kwargs"]}
{"id": "C23", "title": "Keyword renaming loses nothing", "statement": "Renaming keywords according to the mapping table keeps every argument whose table entry is not the empty string, under its new name and with its text, in order; no two arguments of a call collapse whenever the new names are distinct.", "quantifier": "every argument table and every kwargs_change table with distinct targets", "why_tests_cant": "quantifies over all argument tables", "anchors": ["paconvert/base.py:BaseMatcher.change_kwargs"]}
{"id": "C24", "title": "Shipped renaming tables have no collisions (except the listed ones)", "statement": "For every API of the shipped mapping table, two different parameters of one signature are never renamed to the same Paddle parameter, apart from an explicitly listed set of entries.", "quantifier": "every entry of api_mapping.json", "why_tests_cant": "a finite but 2012-entry claim about the shipped table; unit tests exercise individual APIs, not the table", "anchors": ["paconvert/api_mapping.json", "paconvert/base.py:BaseMatcher.change_kwargs"]}
{"id": "C25", "title": "Paddle defaults never override the user", "statement": "Adding Paddle default arguments keeps every argument the user gave, unchanged and first, and adds each default exactly when the user did not give that name.", "quantifier": "every argument table and every default table", "why_tests_cant": "quantifies over all tables", "anchors": ["paconvert/base.py:BaseMatcher.set_paddle_default_kwargs"]}
{"id": "C26", "title": "Prefix-only conversion keeps the argument list", "statement": "For an API converted by prefix change (or plain rename) the generated call has the same positional arguments in the same order, and the same keyword arguments except the fixed list of dropped names, each with its own text; at most one '**' argument.", "quantifier": "every call with at most one '**' argument", "why_tests_cant": "quantifies over all calls", "anchors": ["paconvert/api_matcher.py:ChangePrefixMatcher.get_paddle_nodes", "paconvert/api_matcher.py:ChangeAPIMatcher.get_paddle_nodes", "paconvert/base.py:BaseMatcher.args_and_kwargs_to_str"]}
{"id": "C27", "title": "Multiple '**' arguments survive conversion (violated)", "statement": "A call with several '**mapping' arguments should keep all of them after conversion.", "quantifier": "every call", "why_tests_cant": "needs calls with two double-star arguments; the internal table is keyed by the keyword name, which is None for both", "anchors": ["paconvert/base.py:BaseMatcher.parse_kwargs", "paconvert/api_matcher.py:ChangePrefixMatcher.get_paddle_nodes"]}
{"id": "C28", "title": "Prefix change touches only the package name", "statement": "For every shipped API handled by prefix change, the generated name is the original with its first dotted component replaced by the Paddle package and everything after the first dot unchanged, with the single listed exception of the table.", "quantifier": "every such entry of the shipped tables; and in general every dotted name whose package name occurs only once", "why_tests_cant": "the replacement replaces every occurrence of the package name, so it is right only because of a property of all names in the table", "anchors": ["paconvert/api_matcher.py:ChangePrefixMatcher.get_paddle_api", "paconvert/api_mapping.json"]}
{"id": "C29", "title": "Name lookup never trips its own assertions", "statement": "For every dotted name belonging to a torch package, looking up the matcher neither finds it in both the attribute and the API table nor in both the alias and the API table, except for one shipped alias for which the conversion aborts.", "quantifier": "every string", "why_tests_cant": "the assertion must hold for arbitrary names, including those only matched by wildcards", "anchors": ["paconvert/transformer/basic_transformer.py:BasicTransformer.get_api_matcher", "paconvert/transformer/basic_transformer.py:BasicTransformer.get_attribute_matcher", "paconvert/transformer/basic_transformer.py:BasicTransformer.visit_Attribute"]}
{"id": "C30", "title": "Alias resolution is one step", "statement": "Resolving an alias twice is the same as resolving it once, and a name that is an alias and its target always get the same lookup result.", "quantifier": "every string", "why_tests_cant": "idempotence over all names relies on the whole shipped alias table", "anchors": ["paconvert/base.py:BaseTransformer.get_canonical_torch_api", "paconvert/api_alias_mapping.json"]}
{"id": "C31", "title": "Recognised = converted + unsupported", "statement": "After converting any sequence of files, the number of recognised API uses equals the number of converted uses plus the sum of the per-API unsupported counters.", "quantifier": "every sequence of files, every syntax tree, every matcher behaviour", "why_tests_cant": "an accounting identity over every branch of every visitor and every history", "anchors": ["paconvert/transformer/basic_transformer.py:BasicTransformer.visit_Attribute", "paconvert/transformer/basic_transformer.py:BasicTransformer.visit_Call", "paconvert/transformer/basic_transformer.py:BasicTransformer.trans_class_method", "paconvert/transformer/basic_transformer.py:BasicTransformer.trans_class_attribute", "paconvert/transformer/custom_op_transformer.py:CustomOpTransformer.visit_Attribute", "paconvert/converter.py:Converter.transfer_node"]}
{"id": "C32", "title": "The reported rate is a rate", "statement": "The returned pair (converted, failed) has both components non-negative and sums to the recognised count, and the conversion rate is between 0 and 1 (0 if nothing was recognised), equal to 1 only if nothing failed.", "quantifier": "every sequence of files", "why_tests_cant": "depends on the accounting identity in every reachable state", "anchors": ["paconvert/converter.py:Converter.run"]}
{"id": "C33", "title": "The per-API usage list adds up (violated)", "statement": "The per-API counts shown with --show_all_api should add up to the number of recognised API uses.", "quantifier": "every sequence of files", "why_tests_cant": "only fails for histories where a use of an API is later judged a misidentification: the whole entry is deleted", "anchors": ["paconvert/transformer/basic_transformer.py:BasicTransformer.visit_Call", "paconvert/transformer/basic_transformer.py:BasicTransformer.trans_class_method"]}
{"id": "C34", "title": "The unaligned-API report never fails (violated)", "statement": "Reporting the unaligned APIs should work for every set of recognised APIs.", "quantifier": "every set of recognised API names", "why_tests_cant": "needs an API outside torch.* that is prefix-converted; the report removes it twice", "anchors": ["paconvert/converter.py:Converter.run"]}
{"id": "C35", "title": "Multi-project summary is monotone", "statement": "In separate conversion the number of projects at 100% is at most the number at >=95%, which is at most the number at >=90%, which is at most the number of projects.", "quantifier": "every list of projects and rates", "why_tests_cant": "order law over all lists", "anchors": ["paconvert/main.py:main"]}
{"id": "C36", "title": "Default mode removes every torch import", "statement": "In default mode no import of a torch package (other than one that resolves to a file of the user's project) survives import rewriting, in any import statement of the file.", "quantifier": "every import statement with any list of names, every project layout", "why_tests_cant": "quantifies over all statements and layouts", "anchors": ["paconvert/transformer/import_transformer.py:ImportTransformer.visit_Import", "paconvert/transformer/import_transformer.py:ImportTransformer.visit_ImportFrom"]}
{"id": "C37", "title": "Other imports are kept (violated in one shape)", "statement": "An import that is not of a torch package, a may-torch package or a renamed package is kept unchanged and in order.", "quantifier": "every import statement with any list of names, every project layout", "why_tests_cant": "fails only when one 'import a, b' statement lists a project-local module before others: the loop breaks and the rest is dropped", "anchors": ["paconvert/transformer/import_transformer.py:ImportTransformer.visit_Import"]}
{"id": "C38", "title": "Min mode keeps every import name", "statement": "In min mode every imported torch name stays imported, in the original order (for statements without project-local modules).", "quantifier": "every import statement", "why_tests_cant": "quantifies over all statements", "anchors": ["paconvert/transformer/import_transformer.py:ImportTransformer.visit_Import", "paconvert/transformer/import_transformer.py:ImportTransformer.visit_ImportFrom"]}
{"id": "C39", "title": "Blocks stay non-empty (violated)", "statement": "Removing imports should never leave a block (function body, loop body, else branch, ...) without statements.", "quantifier": "every block of every file", "why_tests_cant": "fails only for blocks consisting only of torch imports that are not the first such block of an if/try", "anchors": ["paconvert/transformer/import_transformer.py:ImportTransformer.visit_Import", "paconvert/transformer/import_transformer.py:ImportTransformer.visit_ImportFrom"]}
{"id": "C40", "title": "Import rewriting of renamed packages is precise (violated)", "statement": "Only imports of the package 'audiotools' and its submodules should be renamed.", "quantifier": "every module name", "why_tests_cant": "needs module names that merely contain the text 'audiotools.'", "anchors": ["paconvert/transformer/import_transformer.py:ImportTransformer.visit_Import", "paconvert/transformer/import_transformer.py:ImportTransformer.visit_ImportFrom"]}
{"id": "C41", "title": "Inserted imports keep the program valid (violated)", "statement": "Statements inserted at the top of a file should not be placed before 'from __future__' imports.", "quantifier": "every file with a __future__ import and at least one torch import", "why_tests_cant": "needs that combination with formatting switched off", "anchors": ["paconvert/transformer/import_transformer.py:ImportTransformer.visit_Module", "paconvert/base.py:BaseTransformer.insert_scope"]}
{"id": "C42", "title": "Files without torch are left alone", "statement": "A file that imports no torch, may-torch or renamed package passes through import rewriting and API conversion with its syntax tree unchanged and all counters unchanged.", "quantifier": "every syntax tree without such an import", "why_tests_cant": "identity over all trees; any visitor branch could break it", "anchors": ["paconvert/transformer/import_transformer.py:ImportTransformer", "paconvert/transformer/basic_transformer.py:BasicTransformer"]}
{"id": "C43", "title": "Name expansion follows the imports", "statement": "An attribute chain whose first name was bound by a torch import is expanded to the full dotted API name (first component replaced by what the import bound, rest unchanged, then alias resolution); chains whose first name was not bound by such an import are not touched.", "quantifier": "every attribute chain and every import table", "why_tests_cant": "quantifies over chains of any length and all import tables", "anchors": ["paconvert/base.py:BaseTransformer.get_torch_api_from_node", "paconvert/base.py:BaseTransformer.replace_torch_module", "paconvert/transformer/import_transformer.py:ImportTransformer.visit_Attribute"]}
{"id": "C44", "title": "Directory conversion mirrors the tree", "statement": "Converting a directory writes, for every regular file whose path has no hidden component and no excluded path on the way, exactly one output file at the same relative path, and writes nothing else besides directories.", "quantifier": "every directory tree and every exclusion predicate", "why_tests_cant": "induction over trees of any depth", "anchors": ["paconvert/converter.py:Converter.transfer_dir", "paconvert/converter.py:listdir_nohidden"]}
{"id": "C45", "title": "The input tree is never modified", "statement": "When the output directory is not inside the input directory, converting leaves every path of the input tree as it was, whatever the order in which the directory is listed. The same holds for the directory of several projects (--separate_convert).", "quantifier": "every file-system state, every listing order", "why_tests_cant": "frame property over all file systems", "anchors": ["paconvert/converter.py:Converter.transfer_dir", "paconvert/converter.py:Converter.transfer_file", "paconvert/converter.py:Converter.run"]}
{"id": "C46", "title": "Legacy loss flags are translated by torch's rule", "statement": "size_average/reduce given as literal booleans (or missing) are translated to reduction by the documented rule: reduce=False gives none; otherwise size_average=False gives sum; otherwise mean; and nothing is added if neither is given; other arguments are untouched.", "quantifier": "every argument table", "why_tests_cant": "quantifies over all argument tables and the nine flag combinations", "anchors": ["paconvert/api_matcher.py:process_reduce_and_size_average"]}
{"id": "C47", "title": "requires_grad becomes the negation (violated for compound values)", "statement": "For a creation call with requires_grad=e the generated code sets stop_gradient to the logical negation of e.", "quantifier": "every expression e", "why_tests_cant": "holds for names and literals, fails for 'a or b', and produces unparsable text for calls: the parentheses are stripped textually", "anchors": ["paconvert/api_matcher.py:GenericMatcher.generate_code"]}
{"id": "C48", "title": "Custom-op names are recovered exactly (violated)", "statement": "The extension variable recorded as 'load_<name>' should be imported and called under <name>.", "quantifier": "every variable name", "why_tests_cant": "fails for every name that starts with one of the letters l, o, a, d or underscore: a character set is stripped instead of the prefix", "anchors": ["paconvert/transformer/custom_op_transformer.py:CustomOpTransformer.visit_ImportFrom", "paconvert/transformer/custom_op_transformer.py:CustomOpTransformer.visit_Attribute"]}
{"id": "C49", "title": "Argument text survives list formatting (violated for texts with quotes)", "statement": "make_tensor with several sizes is converted to code with a list that contains each size's text unchanged. False for texts with an apostrophe, a backslash or a control character, and exactly for those; a single size survives exactly if it has no apostrophe.", "quantifier": "every list of argument texts", "why_tests_cant": "fails only for texts containing an apostrophe, a backslash or a control character", "anchors": ["paconvert/api_matcher.py:MakeTMatcher.get_paddle_nodes"]}
{"id": "C50", "title": "Helper insertion keeps unusual characters (violated)", "statement": "Writing helper code into a converted file should keep every character of the user file; a form feed (or vertical tab, file separator) inside the file is instead turned into a line break.", "quantifier": "every existing file content", "why_tests_cant": "tests use ordinary text; the property ranges over all contents", "anchors": ["paconvert/utils.py: UtilsFileHelper.write_code"]}
{"id": "C51", "title": "Helpers are not placed before a __future__ import (violated)", "statement": "When helper code is inserted into a single converted file it should never precede a from __future__ import line of that file; with a leading docstring it does.", "quantifier": "every list of lines", "why_tests_cant": "the scan depends on the whole leading text of arbitrary user files", "anchors": ["paconvert/utils.py: UtilsFileHelper._find_import_insert_idx"]}
{"id": "C52", "title": "An unconverted call keeps its arguments (violated)", "statement": "When a call is recognised but not converted, the call left in the output has the same keyword arguments as the input call; in fact unsupported keywords passed as None are deleted from it even when the call is then rejected.", "quantifier": "every call and every table entry", "why_tests_cant": "needs a call that is first edited and then rejected; the deletion is a side effect on the syntax tree", "anchors": ["paconvert/base.py:BaseMatcher.parse_args_and_kwargs"]}
{"id": "C53", "title": "'**' arguments are refused or re-emitted as '**' (violated)", "statement": "A call with a '*' or '**' argument handled through the argument table is never converted; in one shape ('**' right after an unsupported keyword passed as None) it is accepted and emitted as a keyword named None, which cannot be parsed.", "quantifier": "every call and every table entry", "why_tests_cant": "the failing shape depends on the order of keywords in the call", "anchors": ["paconvert/base.py:BaseMatcher.parse_args_and_kwargs", "paconvert/base.py:BaseMatcher.kwargs_to_str"]}
{"id": "C54", "title": "Generic conversion emits every argument", "statement": "The code generated for an API handled by the generic rule is the Paddle call with all renamed arguments and missing defaults as keywords, dtype as a cast, pin_memory as a method call, requires_grad as an assignment to stop_gradient and out as an assignment to that variable, and nothing else is lost except a fixed list of names.", "quantifier": "every argument table whose new names are distinct and every table entry", "why_tests_cant": "quantifies over all tables and all combinations of the special names", "anchors": ["paconvert/api_matcher.py:GenericMatcher.generate_code"]}
{"id": "C55", "title": "pin_memory=flag pins only if the flag holds (violated)", "statement": "A creation call with pin_memory=flag should pin the result only when flag is true; the generated code pins for every value except the literal False.", "quantifier": "every flag expression", "why_tests_cant": "tests use literal flags", "anchors": ["paconvert/api_matcher.py:GenericMatcher.generate_code"]}
{"id": "C56", "title": "Min mode and conversion agree on which names stay", "statement": "In min mode an imported torch name is kept under its own name exactly when the later conversion of that name is a pure prefix change; in default mode none is kept.", "quantifier": "every string", "why_tests_cant": "The two decisions are taken by different code over tables of two thousand rows and two wildcard rules (first match in one place, last match in the other); agreement must hold for every possible name.", "anchors": ["paconvert/base.py:BaseTransformer.in_min_mode", "paconvert/transformer/basic_transformer.py:BasicTransformer.get_api_matcher"]}
{"id": "C57", "title": "A conversion never yields a torch name (violated for one row)", "statement": "The Paddle name generated for an API, by the table or by prefix change, does not itself belong to a torch package.", "quantifier": "every shipped row; every dotted name under prefix change", "why_tests_cant": "Ranges over every name of every torch package.", "anchors": ["paconvert/api_mapping.json", "paconvert/api_matcher.py:ChangePrefixMatcher.get_paddle_api"]}
{"id": "C58", "title": "Every generically handled API accepts its minimal call", "statement": "For every shipped API handled by the generic matcher, a call that passes the required number of positional arguments (any plain expressions) is recognised and bound, not rejected or misidentified.", "quantifier": "every shipped row handled by the generic matcher, every list of plain argument expressions of the required length", "why_tests_cant": "Ranges over all argument expressions and all rows.", "anchors": ["paconvert/api_mapping.json", "paconvert/base.py:BaseMatcher.parse_args_and_kwargs"]}
{"id": "C59", "title": "Shipped rows meet their matcher's assertions (violated for one row)", "statement": "Asking the matcher of a shipped row for the Paddle name returns instead of failing an assertion.", "quantifier": "every shipped row", "why_tests_cant": "Depends on a data table of two thousand rows against three different assertion sets.", "anchors": ["paconvert/api_matcher.py:GenericMatcher.get_paddle_api", "paconvert/api_matcher.py:ChangeAPIMatcher.get_paddle_api", "paconvert/api_mapping.json"]}
{"id": "C60", "title": "Import rewriting never fails (violated for four reserved words)", "statement": "Import rewriting should finish without an exception on every file. It does on every file in which no identifier and no imported name is one of four words the tool uses for its own bookkeeping; a file that uses such a word fails.", "quantifier": "all syntax trees that Python can parse, all modes and project layouts", "why_tests_cant": "an exception hides in the one identifier nobody tried; totality is about all trees", "anchors": ["paconvert/transformer/import_transformer.py:visit_Import", "paconvert/transformer/import_transformer.py:visit_Attribute", "paconvert/base.py:get_torch_api_from_node"]}
{"id": "C61", "title": "Inserted imports are exactly the needed ones", "statement": "The imports added at the top of a file are exactly the replacements of the listed packages its import statements name, each once, whatever order Python enumerates its sets in.", "quantifier": "all files, all set enumeration orders", "why_tests_cant": "set order varies between runs and interpreters; tests see one order", "anchors": ["paconvert/transformer/import_transformer.py:transform", "paconvert/base.py:record_scope"]}
{"id": "C62", "title": "Bare imported names are resolved (violated)", "statement": "Every use of a bare name bound by a removed torch import should be replaced. It is replaced exactly in a fixed list of syntactic positions; elsewhere, e.g. in a list display, the name is left behind unbound.", "quantifier": "all files, all uses of a bare imported name, all enclosing nodes", "why_tests_cant": "there are as many positions as grammar productions", "anchors": ["paconvert/transformer/import_transformer.py:visit_Name"]}
{"id": "C63", "title": "Name expansion respects scopes (violated)", "statement": "A dotted name headed by a local variable or parameter should not be rewritten, even if a torch import elsewhere binds the same name.", "quantifier": "all files with shadowed names", "why_tests_cant": "needs a shadowing name; tests use fresh ones", "anchors": ["paconvert/transformer/import_transformer.py:visit_Attribute"]}
{"id": "C64", "title": "Expressions below attribute chains are rewritten (violated)", "statement": "API uses nested anywhere in an expression should be rewritten. Below two or more attributes of a call result nothing is, although the import is removed.", "quantifier": "all expressions", "why_tests_cant": "nesting is unbounded", "anchors": ["paconvert/transformer/import_transformer.py:visit_Attribute"]}
{"id": "C65", "title": "Star imports are resolved (violated)", "statement": "After 'from torch import *' is removed, the names it provided should be resolved.", "quantifier": "all files with star imports", "why_tests_cant": "tests import names explicitly", "anchors": ["paconvert/transformer/import_transformer.py:visit_ImportFrom"]}
{"id": "C66", "title": "Relative imports of bundled library code are resolved", "statement": "In a file below a directory huggingface_internal a relative import with two or three dots stands for the installed library: its names are bound to the absolute names, min mode writes the absolute import, default mode removes it.", "quantifier": "all such files, modules, name lists", "why_tests_cant": "four prefix cases times all module names", "anchors": ["paconvert/transformer/import_transformer.py:visit_ImportFrom"]}
{"id": "C67", "title": "Project modules are recognised by their files (violated for packages elsewhere in the project)", "statement": "A module a.b.c counts as part of the user's project exactly if a/b/c or a/b/c.py is on the disk below the directory of the converted file; while a directory is converted, what lies there in the input counts, whatever was written. Expected but not true: a package of the project that lies elsewhere, such as its own datasets package imported from a file in a subdirectory, is recognised; the import is replaced.", "quantifier": "all disks with possible file names, directories, file and module names, states of a conversion", "why_tests_cant": "tests cover one layout", "anchors": ["paconvert/transformer/import_transformer.py:visit_Import", "paconvert/transformer/import_transformer.py:visit_ImportFrom"]}
{"id": "C68", "title": "Only names, attributes and calls are rewritten", "statement": "API conversion replaces names, attribute chains and calls and inserts statements into blocks; every other construct of the file keeps its kind, its fields and the order of its parts, so no statement of the user is lost. No shipped table entry asks for a deletion.", "quantifier": "every syntax tree, every matcher behaviour without deletions", "why_tests_cant": "a structural statement about every tree and every answer a matcher may give", "anchors": ["paconvert/transformer/basic_transformer.py:BasicTransformer", "paconvert/base.py:BaseTransformer.insert_scope", "paconvert/api_mapping.json"]}
{"id": "C69", "title": "An output directory inside the input", "statement": "A conversion whose output lies inside its input (the default ./paddle_project of 'paconvert -i .' does) ends. The code violates it: once the output directory exists, the conversion descends into its own output until the recursion limit, whatever the limit.", "quantifier": "every file system, recursion limit, listing order and conversion function", "why_tests_cant": "a statement about every recursion limit and every tree", "anchors": ["paconvert/converter.py:Converter.transfer_dir", "paconvert/converter.py:Converter.run"]}
{"id": "C70", "title": "A conversion is not aborted by the layout of the project", "statement": "If every file that takes part can be converted, none is a device or socket, the recursion limit exceeds the depth of the tree and nothing clashes with the output, the conversion of a directory finishes without exception.", "quantifier": "every directory tree, listing order, exclusion and conversion function", "why_tests_cant": "induction over trees of any depth and listings in any order", "anchors": ["paconvert/converter.py:Converter.transfer_dir", "paconvert/converter.py:Converter.run", "paconvert/utils.py:UtilsFileHelper.write_code"]}
{"id": "C71", "title": "Exclusion depends only on the path within the project (violated)", "statement": "Whether a file is excluded depends on its path below the input directory, not on where the project lies.", "quantifier": "every location of a project", "why_tests_cant": "tests convert from one location", "anchors": ["paconvert/converter.py:Converter.transfer_dir", "paconvert/converter.py:Converter.run"]}
{"id": "C72", "title": "An empty exclusion pattern excludes everything", "statement": "If the comma-separated list of exclusion patterns has an empty entry, e.g. a comma at its end, the conversion of a directory writes nothing and reports success.", "quantifier": "every list of patterns with an empty entry, every tree", "why_tests_cant": "for every tree and pattern list", "anchors": ["paconvert/converter.py:Converter.transfer_dir", "paconvert/converter.py:Converter.run"]}
{"id": "C73", "title": "The project's own paddle_utils.py (violated)", "statement": "A file paddle_utils.py in the top directory of a project has its converted text in the output. The code violates it: whenever the conversion needs a helper function, that file holds the helper functions only.", "quantifier": "every project and every set of helper functions", "why_tests_cant": "holds for every project that needs a helper", "anchors": ["paconvert/converter.py:Converter.run", "paconvert/utils.py:UtilsFileHelper.write_code"]}
{"id": "C74", "title": "No file is deleted (violated)", "statement": "A conversion deletes no file. The code violates it: a file in the place of the directory that is to hold the output is deleted, even if it is the input.", "quantifier": "every file system", "why_tests_cant": "depends on the state of the file system", "anchors": ["paconvert/converter.py:Converter.transfer_dir"]}
{"id": "C75", "title": "Code generation does not raise on a correct call", "statement": "For every API of the mapping table whose matcher only generates code from the call (486 rows), every call that names only documented parameters and gives the mandatory ones is either rewritten, refused or left as not-an-API; the matcher never raises. The only exceptions are Tensor.type with an argument but without dtype, and OneCycleLR with final_div_factor but without div_factor (or without usable step counts).", "quantifier": "all rows with a modelled matcher, all regular calls (any number of arguments, any argument texts), any counter state", "why_tests_cant": "The unit tests call each API with a handful of argument combinations; a KeyError for one combination aborts the conversion of the whole file.", "anchors": ["paconvert/api_matcher.py: generate_code of 127 classes", "paconvert/base.py: get_paddle_nodes, get_paddle_class_nodes", "paconvert/api_mapping.json"]}
{"id": "C76", "title": "No argument is silently lost", "statement": "When such a call is rewritten, the source text of every argument that is given (and is not None) appears verbatim in the generated code, unless the mapping row itself maps the parameter to nothing or the pair (API, parameter) is in an explicit list; every pair in that list is shown to lose its argument in some correct call.", "quantifier": "all rows with a modelled matcher, all regular calls, all argument texts", "why_tests_cant": "Whether an argument survives depends on which other arguments are given and on their texts.", "anchors": ["paconvert/api_matcher.py: generate_code of 127 classes", "paconvert/base.py: change_kwargs, kwargs_to_str"]}
{"id": "C77", "title": "Arguments are evaluated at most once", "statement": "When such a call is rewritten, the text of each argument and of the receiver is written into the generated code at most once, so that side effects are not duplicated, except for an explicit list of (API, parameter) pairs and methods; each entry of that list duplicates in some correct call.", "quantifier": "all rows with a modelled matcher, all regular calls, all argument texts", "why_tests_cant": "Tests use arguments without side effects.", "anchors": ["paconvert/api_matcher.py: generate_code of 127 classes"]}
{"id": "C78", "title": "Generated code is syntactically valid", "statement": "For every regular call of an API whose generator is modelled, with argument expressions of any form, the text that replaces the call is a list of Python statements ending with an expression: brackets match, positional arguments precede keyword arguments, no keyword occurs twice, and no argument is torn apart by a neighbouring operator. The exceptions are listed (arguments that must be operands because they are joined to operators, arguments whose parentheses are stripped, two mishandled APIs) and shown to be real.", "quantifier": "all rows of the API table with a modelled generator, all regular calls (positional and keyword arguments), all argument and receiver texts, all states of the name counters", "why_tests_cant": "A unit test compares the output for a few literal arguments; the output for other combinations of optional arguments and other expressions is never parsed.", "anchors": ["paconvert/api_matcher.py", "paconvert/base.py:BaseMatcher.get_paddle_nodes", "paconvert/base.py:BaseMatcher.kwargs_to_str"]}
{"id": "C79", "title": "Generated statements bind only generated names", "statement": "The statements placed before a converted call assign only names made by the name generator, so they overwrite no variable of the program. The APIs that break this, by assigning or importing a fixed name such as tmp_lr, res or out1, are listed and shown to be real.", "quantifier": "all rows of the API table with a modelled generator, all regular calls, all argument texts, all states of the name counters", "why_tests_cant": "A test would have to use the clobbered name as a variable of the surrounding program, for each API and each combination of optional arguments.", "anchors": ["paconvert/api_matcher.py", "paconvert/utils.py:UniqueNameGenerator"]}
{"id": "C80", "title": "Generated statements go above the line that needs them", "statement": "When converting a line of a block needs further statements, these are put directly above that line, in the order in which they were asked for and each only once; imports and changes of sys.path go to the top of the file; nothing else is inserted and no line changes its place. Formally the pass, which collects the statements in a table indexed by node, field and index and inserts them at the end, gives the same file, counters, reports and exceptions as a reference conversion without such a table. It holds as long as no line is deleted (no shipped row deletes); with a deletion it is violated.", "quantifier": "all files, all nestings of blocks, all tables of imports, all matcher behaviours that return expressions and delete nothing, all recursion limits", "why_tests_cant": "Tests have one use per file; that indices recorded during the walk still name the right line at the end, for every nesting and every number of insertions before it, is a statement about all trees.", "anchors": ["paconvert/base.py:BaseTransformer.record_scope", "paconvert/base.py:BaseTransformer.insert_scope", "paconvert/base.py:BaseTransformer.scope_body_index", "paconvert/base.py:BaseTransformer.insert_multi_node", "paconvert/transformer/basic_transformer.py:BasicTransformer"]}
{"id": "C81", "title": "Generated statements run whenever the expression that needs them is evaluated (violated)", "statement": "The statements generated for an expression should be executed before each evaluation of the expression. This is false: statements generated for the condition of a while loop are put above the loop and run once, while the condition is evaluated before every round.", "quantifier": "all files with a converted expression in the condition of a loop", "why_tests_cant": "The tests compare the generated code of single expressions; no test has a multi-statement conversion inside a loop condition.", "anchors": ["paconvert/base.py:BaseTransformer.scope_body_index", "paconvert/base.py:BaseTransformer.insert_multi_node"]}
{"id": "C82", "title": "What counts as a use of an API", "statement": "Which names, calls and attributes are treated as uses of a torch API is determined by the imports of the file, the two API tables and the components of the dotted name: a name inside an imported torch package; a called name of the table; or a method or attribute whose owner may be a tensor, module, optimizer, function context or distribution, by rules on the number of components and on components such as self, weight or T, tried in a fixed order. Names of other packages, of paddle, and values computed from them never count, and then nothing in the file or the report changes. As a consequence the methods of a tensor variable whose name ends in self are not recognised (violates what a user expects).", "quantifier": "all dotted names and computed expressions, all import tables, all states", "why_tests_cant": "Tests use variables called x, a, self and result; the recognition is by substring search on the text of the name, so every identifier is a different case.", "anchors": ["paconvert/base.py:BaseTransformer.get_full_attr_for_apiname", "paconvert/base.py:BaseTransformer.get_full_attr_strict", "paconvert/transformer/basic_transformer.py:BasicTransformer.visit_Call", "paconvert/transformer/basic_transformer.py:BasicTransformer.visit_Attribute"]}
{"id": "C83", "title": "What becomes of a recognised use", "statement": "For every recognised use, whatever the API's converter answers: the use is replaced by the value of the last generated line and the lines before it are put above; or it is kept; or its line is dropped; or it is kept and counted as not converted, with a remark above the line for methods and attributes of values. Which of these happens is determined by the answer, by the kind of the generated expression and by whether there is room for statements (there is none directly inside a comprehension). The counters, the report of all APIs and the report of unsupported APIs change by exactly one entry accordingly. A first argument self is hidden from the converter and put back.", "quantifier": "all uses, all answers of the converters, all positions in the file, all states of the counters and reports", "why_tests_cant": "Tests see one answer per API in one context; the combinations of answer, surrounding node and state are unbounded.", "anchors": ["paconvert/transformer/basic_transformer.py:BasicTransformer.trans_class_method", "paconvert/transformer/basic_transformer.py:BasicTransformer.trans_class_attribute", "paconvert/transformer/basic_transformer.py:BasicTransformer.visit_Call", "paconvert/transformer/basic_transformer.py:BasicTransformer.visit_Attribute", "paconvert/base.py:BaseTransformer.insert_multi_node"]}
{"id": "C84", "title": "Only the wrapper classes of C++ extensions are removed", "statement": "A class that derives from PyLayer and uses an imported or loaded C++ extension is remembered when the use is met; the next pass deletes exactly the remembered classes with their contents and leaves every other class definition in the file, in order. Expected but not true: nothing in the file still uses a deleted class; only imports of that very class are rewritten elsewhere. Expected but not true: a wrapper that derives from torch.autograd.Function is removed too; the tables turn its base into paddle.autograd.Function, which the pass does not look for. The names that count as the extension are exactly those given by importing it, under whatever name, or by assigning the result of load; just these imports are removed.", "quantifier": "every syntax tree, nesting of classes, recursion limit and set of remembered classes", "why_tests_cant": "The pass runs on every file of every project; deleting one class too many or too few depends on nesting and on what earlier files left in a global table.", "anchors": ["paconvert/transformer/custom_op_transformer.py:PreCustomOpTransformer", "paconvert/transformer/custom_op_transformer.py:CustomOpTransformer.visit_ClassDef", "paconvert/transformer/custom_op_transformer.py:CustomOpTransformer.visit_ImportFrom"]}
{"id": "C85", "title": "--exclude_packages removes exactly the listed packages", "statement": "The value of --exclude_packages is cut at commas. If all names are supported packages and distinct, exactly these are no longer converted; otherwise the program stops with KeyError. Blanks are not stripped.", "quantifier": "every option value and every package table", "why_tests_cant": "Any text can be given on the command line.", "anchors": ["paconvert/main.py:main"]}
{"id": "C86", "title": "Model constructors keep their arguments; weights become pretrained=True", "statement": "A converted torchvision model constructor keeps every argument except weights, progress and the names its table entry drops; pretrained=True is passed exactly if weights other than None are given. Expected but not true: the choice of weights matters; unsupported arguments and *args are refused.", "quantifier": "every call of the 25 constructors and every entry that only drops names", "why_tests_cant": "quantifies over all argument lists; the lost choice concerns every pair of weights", "anchors": ["paconvert/api_matcher.py:WeightsMatcher"]}
{"id": "C87", "title": "C++ extension constructors keep their arguments", "statement": "CppExtension and CUDAExtension calls keep all arguments except the name; a call with ** is marked, one with too few or too many arguments is left. Expected but not true: the result can be parsed; a third positional argument is printed as '*args=...'.", "quantifier": "every argument list", "why_tests_cant": "quantifies over all argument lists", "anchors": ["paconvert/api_matcher.py:CUDAAndCppExtensionMatcher"]}
{"id": "C88", "title": "Tensor.max and Tensor.min", "statement": "With other= the call becomes maximum/minimum, with dim= or two positional arguments the pair of max and argmax with the same arguments, otherwise a call of the helper; more than two arguments are left alone. Expected but not true: a call with ** is marked; it raises TypeError.", "quantifier": "every receiver text and argument list", "why_tests_cant": "quantifies over all receivers and argument lists", "anchors": ["paconvert/api_matcher.py:TensorMaxMatcher.get_paddle_class_nodes", "paconvert/api_matcher.py:TensorMinMatcher.get_paddle_class_nodes"]}
{"id": "C89", "title": "chain_matmul becomes the product of its arguments in order", "statement": "chain_matmul(a, b, ...) becomes 'a @ b @ ...', assigned to out if that is given and not None. Expected but not true: other calls are refused; a starred argument among several is printed as '@ *rest' and a call without arguments raises IndexError.", "quantifier": "every non-empty argument list", "why_tests_cant": "any number of factors", "anchors": ["paconvert/api_matcher.py:Chain_MatmulMatcher.get_paddle_nodes"]}
{"id": "C90", "title": "hub.load, Tensor.stft and PreTrainedModel calls are printed again", "statement": "The generated call has the same arguments in the same order, except: hub.load renames repo_or_dir (moved to the end) and drops three options; stft drops return_complex and adds .as_real() exactly if it was the literal False; PreTrainedModel drops three names and enables its helper.", "quantifier": "every argument list", "why_tests_cant": "quantifies over all argument lists", "anchors": ["paconvert/api_matcher.py:HubLoadMatcher", "paconvert/api_matcher.py:TensorStftMatcher", "paconvert/api_matcher.py:TRFMPreTrainedModelMatcher"]}
{"id": "C91", "title": "setup calls are converted only for C++ extensions", "statement": "A setup call is converted exactly if its cmdclass mentions the converted BuildExtension and it has a name; it keeps all arguments except cmdclass, and its name is added to the known extensions; otherwise the call and the list stay. Expected but not true: other commands in cmdclass survive; a nameless call is left (it raises KeyError).", "quantifier": "every argument list and every list of known extensions", "why_tests_cant": "the list is global state shared by all files", "anchors": ["paconvert/api_matcher.py:SetUpMatcher.generate_code"]}
{"id": "C92", "title": "Tensor.split keeps its meaning", "statement": "The call is left as it is and a helper replaces Tensor.split. For an integer size the helper gives the pieces torch gives exactly if the size divides the axis length. Expected but not true: otherwise it fails; 8 split by 3 gives two pieces of 4.", "quantifier": "every axis length and size; every argument list", "why_tests_cant": "holds or fails by divisibility", "anchors": ["paconvert/api_matcher.py:TensorSplitMatcher"]}
{"id": "C93", "title": "apply_rotary_emb_func becomes a call of its helper", "statement": "An accepted call becomes a call of the helper with every argument as keyword. Expected but not true: the helper accepts these arguments; it has only three parameters, the converter accepts eight.", "quantifier": "every accepted argument list", "why_tests_cant": "quantifies over all argument lists", "anchors": ["paconvert/api_matcher.py:FAApplyRotaryEmbFuncMatcher"]}
{"id": "C94", "title": "make_tensor becomes paddle.uniform", "statement": "make_tensor(sizes, dtype=, device=, low=, high=, requires_grad=) becomes paddle.uniform with these texts and defaults float32, 0, 1, moved to the device; it raises exactly if there is **, no size or no device. Expected but not true: the assigned name is new; it is always 'out'.", "quantifier": "every argument list", "why_tests_cant": "quantifies over all argument lists", "anchors": ["paconvert/api_matcher.py:MakeTMatcher.get_paddle_nodes"]}
{"id": "C95", "title": "Softmin and log-softmax without an axis use torch's axis (violated)", "statement": "When softmin or LogSoftmax is used without dim, the converted code should normalise along the axis torch chooses: 0 for 0, 1 or 3 axes, otherwise 1. The helper implements this rule, but softmin hands it the negated number of axes, so it is wrong exactly for 1 and 3 axes; nn.LogSoftmax() always uses axis 0.", "quantifier": "all numbers of axes and all argument texts", "why_tests_cant": "a test fixes the number of axes", "anchors": ["paconvert/api_matcher.py:FSoftMinMatcher", "paconvert/api_matcher.py:SoftminMatcher", "paconvert/api_matcher.py:LogSoftmaxMatcher"]}
{"id": "C96", "title": "Devices are renamed", "statement": "A torch device given as number, text, type and index, or place becomes paddle's name of the same device; the result contains no 'cuda' and is not changed by converting it again. Number 0 given by keyword becomes the CPU.", "quantifier": "all devices, in every form torch accepts", "why_tests_cant": "infinitely many device numbers", "anchors": ["paconvert/api_matcher.py:Device2StrMatcher"]}
{"id": "C97", "title": "Tensor.max and Tensor.min keep the form that was asked for", "statement": "With an axis the pair of values and positions is computed with the same axis and keepdim; with a second tensor the elementwise extremum; without arguments the extremum of all.", "quantifier": "all accepted argument lists, by position and by name", "why_tests_cant": "all mixes of positional and named arguments", "anchors": ["paconvert/api_matcher.py:TensorMaxMatcher", "paconvert/api_matcher.py:TensorMinMatcher"]}
{"id": "C98", "title": "Boxes stay with their images (violated)", "statement": "ROI pooling hands paddle each box with the image it belongs to. True for lists of boxes; for a tensor of boxes true exactly if it is ordered by image.", "quantifier": "all batches and boxes", "why_tests_cant": "tests use ordered boxes", "anchors": ["paconvert/api_matcher.py:BoxesConvertMatcher"]}
{"id": "C99", "title": "linalg.lu_solve solves the requested equation", "statement": "For every combination of left and adjoint the result X satisfies AX=B, A'X=B, XA=B or XA'=B. Batches of matrices are not transposed one by one with .T.", "quantifier": "all matrices, both flags", "why_tests_cant": "needs the algebraic laws", "anchors": ["paconvert/api_matcher.py:LinalgLuSolveMatcher"]}
{"id": "C100", "title": "can_cast follows the order of kinds", "statement": "A cast is allowed exactly if the kind of the target (bool, integer, float, complex) is not below the kind of the source; other types raise KeyError.", "quantifier": "all type names", "why_tests_cant": "144 pairs and unknown names", "anchors": ["paconvert/api_matcher.py:CanCastMatcher"]}
{"id": "C101", "title": "List operations keep their operation", "statement": "Every _foreach_ API applies the paddle operation of the same name to each tensor.", "quantifier": "all rows with these matchers", "why_tests_cant": "53 rows, tests cover some", "anchors": ["paconvert/api_matcher.py:ForeachMatcher", "paconvert/api_matcher.py:ForeachTensorMatcher"]}
{"id": "C102", "title": "reduce_scatter_tensor hands out the right parts (violated)", "statement": "Process r receives the r-th of world_size equal parts; an uneven input is refused. Left-out arguments should keep torch's defaults, but None is handed over for op and sync_op.", "quantifier": "all world sizes and inputs", "why_tests_cant": "needs many processes", "anchors": ["paconvert/api_matcher.py:ReduceScatterTensorMatcher"]}
{"id": "C103", "title": "symeig calls the right routine", "statement": "eigenvalues only unless eigenvectors are asked for, upper triangle unless upper=False; the arguments are handed on by name.", "quantifier": "all arguments", "why_tests_cant": "all combinations of left-out arguments", "anchors": ["paconvert/api_matcher.py:SymeigMatcher"]}
{"id": "C104", "title": "Head masks get five axes", "statement": "A mask per head, per layer and head, or complete becomes a mask of five axes [layers,1,heads,1,1]; chunks add a sixth; other shapes raise AssertionError.", "quantifier": "all shapes and layer counts", "why_tests_cant": "infinitely many shapes", "anchors": ["paconvert/api_matcher.py:TRFMPreTrainedModelMatcher"]}
{"id": "C105", "title": "Names and tuples are translated", "statement": "Reductions get torch's numbers, VOC 2012 parts get the paddle mode that reads the same part, and n-tuples repeat a single value and keep an iterable; everything else raises ValueError.", "quantifier": "all names, years, values", "why_tests_cant": "all other names must be refused", "anchors": ["paconvert/api_matcher.py:Get_EnumMatcher", "paconvert/api_matcher.py:VOCDetectionMatcher", "paconvert/api_matcher.py:NTupleMatcher"]}
{"id": "C106", "title": "Helpers of matcher classes no row names", "statement": "No API of the tables reaches these classes. Of their helpers: transpose exchanges the two axes, max/min keep the form asked for, add/sub scale the operand; index_copy is right exactly if all positions are copied or there is one outer block; round cuts off; out= fails; converted devices are refused by device2int.", "quantifier": "all inputs of the helpers, all rows of the tables", "why_tests_cant": "dead code is not tested", "anchors": ["paconvert/api_matcher.py:TransposeMatcher", "paconvert/api_matcher.py:TensorIndexCopyMatcher", "paconvert/api_matcher.py:TensorRoundMatcher", "paconvert/api_matcher.py:TensorAddMatcher", "paconvert/api_matcher.py:MaxMatcher", "paconvert/api_matcher.py:TensorReshapeMatcher", "paconvert/api_matcher.py:Device2IntMatcher", "paconvert/api_matcher.py:CudaGetRngStateMatcher"]}
{"id": "C107", "title": "Calls with renamed arguments are rewritten exactly", "statement": "A call of one of the 242 APIs that are described by a renaming of arguments alone becomes a call of the paddle function (or of the paddle method on the same receiver) with every given argument under its new name and every default the table asks for; dtype becomes a cast, pin_memory a method call, requires_grad an assignment to stop_gradient, out an assignment to that variable; nothing else is written.", "quantifier": "every such row of the shipped table, every receiver, all argument lists the row describes, every state of the generator of names", "why_tests_cant": "the renaming tables are data and the combinations of arguments are unbounded; a clash between an old and a new name loses an argument without an error", "anchors": ["paconvert/api_matcher.py:GenericMatcher.generate_code", "paconvert/base.py:BaseMatcher.get_paddle_nodes", "paconvert/base.py:BaseMatcher.parse_args_and_kwargs", "paconvert/base.py:BaseMatcher.change_kwargs", "paconvert/api_mapping.json"]}
{"id": "C108", "title": "The receiver of a converted method call is kept (violated)", "statement": "In the converted method call the receiver is the same expression. False: the receiver is sent through re.escape and back, which loses the backslash of escape sequences: table['\\n'].fliplr() becomes table['n'].flip(axis=1). It holds for receivers without backslash and line break; what happens to the others is stated exactly.", "quantifier": "every row of the tables, every receiver text", "why_tests_cant": "receivers in tests are names; the receivers that are damaged are those with escape sequences", "anchors": ["paconvert/base.py:BaseMatcher.parse_func"]}
{"id": "C109", "title": "The shipped matchers meet the assumptions of the pass", "statement": "With the matchers and tables that are shipped, the conversion of a file changes nothing but uses of APIs (and what the first pass left to remove), and every statement a conversion needs is put directly above the line of the use.", "quantifier": "every file of the modelled syntax, every behaviour of the printer, every parser whose expression statements hold expressions, every initial state without pending work", "why_tests_cant": "the pass is generic in the matchers; that each of the classes respects its contract on all inputs cannot be sampled", "anchors": ["paconvert/base.py:BaseMatcher", "paconvert/api_matcher.py", "paconvert/transformer/basic_transformer.py:BasicTransformer"]}
{"id": "C110", "title": "Calls are replaced by what their row says, in place", "statement": "A call that is read as an API whose row changes the package, the name or the names of arguments is replaced in the tree by the expression whose text is the paddle name (on the same receiver for methods) with the arguments the row prescribes, further statements go above its line, and the call is counted once as converted under the paddle name. Every such row and every call the row describes has such a text.", "quantifier": "every file, every use, every shipped row of these three kinds, every argument list with distinct keywords that the row describes, every position in the file", "why_tests_cant": "it is a statement about thousands of rows and all call positions at once, from recognising the name to the replaced node", "anchors": ["paconvert/transformer/basic_transformer.py:BasicTransformer.visit_torch_api", "paconvert/transformer/basic_transformer.py:BasicTransformer.trans_class_method", "paconvert/api_matcher.py:GenericMatcher", "paconvert/api_matcher.py:ChangePrefixMatcher", "paconvert/api_matcher.py:ChangeAPIMatcher", "paconvert/api_mapping.json"]}
{"id": "C111", "title": "Converting a call does not raise (violated)", "statement": "Converting a call of a known API does not raise an exception. It raises only if Python's parser rejects the produced text, or KeyError for the incomplete calls listed in C75. False for methods with their own code for method calls that are called through the class: torch.Tensor.max(x) raises TypeError whatever the printer and the parser do, and the whole file is lost.", "quantifier": "every shipped row with generated or reprinted code, every regular call, every parser and printer", "why_tests_cant": "one exception loses the whole file; the inputs that raise are combinations of row and argument list nobody wrote a test for", "anchors": ["paconvert/base.py:BaseMatcher.get_paddle_nodes", "paconvert/base.py:BaseMatcher.generate_code", "paconvert/api_matcher.py:TensorMaxMatcher", "paconvert/api_matcher.py:TensorMinMatcher", "paconvert/api_matcher.py:TensorRenameMatcher", "paconvert/api_matcher.py:TensorStftMatcher"]}
{"id": "C112", "title": "--mode min leaves calls alone whose name only changes its package (violated)", "statement": "With --mode min a call of an API whose name only changes its package is left as it is. It keeps its name, receiver and arguments, but the keywords layout, generator, memory_format, sparse_grad and foreach disappear although the call still goes to torch: torch.empty_like(x, memory_format=m) becomes torch.empty_like(x). Without these keywords the call is unchanged whenever the parser reads the printed call back.", "quantifier": "every file, every use of such an API as function or method, every argument list with distinct keywords", "why_tests_cant": "the keywords are dropped for every row of the kind, but only rows that have such a keyword show it", "anchors": ["paconvert/api_matcher.py:ChangePrefixMatcher"]}
{"id": "C113", "title": "Code written out for a formula computes the formula of PyTorch (violated at zero for xlogy)", "statement": "Where a call is replaced by arithmetic on paddle functions (addbmm, addcmul, addcdiv, addmv, addr, erfc, erfcx, exp2, logaddexp2, logdet, ndtr, ndtri, where, select, bilinear and their methods), the new expression, read with the precedence of Python, has the value that PyTorch documents for the call, with its defaults for arguments that are not given. If the call names an output tensor, or the method changes its receiver, that tensor ends up with this value; nothing else is changed. xlogy and xlog1py become products with a logarithm, which is not the documented 0 where the first argument is 0 and the logarithm is not finite.", "quantifier": "every value of every argument, every expression text given as argument, every subset of optional arguments, positional or by keyword, every interpretation of the paddle functions that satisfies the listed laws", "why_tests_cant": "a test compares outputs for a few tensors and a few argument texts; precedence errors show only for some texts and wrong defaults only for some subsets of arguments", "anchors": ["paconvert/api_matcher.py:AddMRMatcher", "paconvert/api_matcher.py:TensorAddMRMatcher", "paconvert/api_matcher.py:ErfCMatcher", "paconvert/api_mapping.json"]}
{"id": "C114", "title": "Parameters that paddle describes the other way round receive the right value (violated for softmin, qr, InstanceNorm, solve_triangular)", "statement": "Where paddle has a parameter with the opposite meaning or another default (sync_op for async_op, time_major for batch_first, exclusive for count_include_pad, momentum, fftbins for sym, set_to_zero for set_to_none, axis1 and axis2 of diagonal, axis of Softmax2d, the negated input of softmin), that parameter of the new call receives the value that follows from the PyTorch call, also if the call relies on the default of PyTorch. The default axis of softmin is computed from minus the number of dimensions and therefore wrong for 1 and 3 dimensions; qr receives the opposite mode; InstanceNorm gets weights that the call does not ask for; solve_triangular transposes A instead of solving XA = B.", "quantifier": "every value and text of the arguments, every subset of optional arguments, positional or by keyword", "why_tests_cant": "each default needs a call that omits exactly that argument; a test for one row says nothing about the others", "anchors": ["paconvert/api_matcher.py:ReverseAsyncOpMatcher", "paconvert/api_matcher.py:RNNMatcher", "paconvert/api_matcher.py:AvgPoolMatcher", "paconvert/api_matcher.py:ReverseMomentumMatcher", "paconvert/api_matcher.py:SignalWindowsWatcher", "paconvert/api_matcher.py:ZeroGradMatcher", "paconvert/api_matcher.py:FSoftMinMatcher", "paconvert/api_matcher.py:QrMatcher"]}
{"id": "C115", "title": "Variables introduced for different calls never collide", "statement": "The statements that the conversion of one call places before it assign to variables that the statements of no other converted call assign to, whatever is converted in between and in whichever file. The only exceptions are the fixed names listed for C79.", "quantifier": "every conversion: any number of files and of calls in any order, every pair of converted calls, every argument text", "why_tests_cant": "a collision depends on the counters left by everything that was converted before", "anchors": ["paconvert/utils.py:UniqueNameGenerator", "paconvert/api_matcher.py", "paconvert/transformer/basic_transformer.py"]}
{"id": "C116", "title": "Helper code that converted calls need is registered, imported and kept", "statement": "If the code that replaces a call uses a function of paddle_utils.py, the file gets the import of paddle_utils and the helper code of that matcher is in the registry when the conversion ends. Calls whose code does not use helper code register nothing. Names converted to helper functions register them as well. Nothing that was registered is lost later.", "quantifier": "every conversion: every sequence of questions to the matchers, every row of the API table with a modelled generator, every regular call", "why_tests_cant": "whether a helper is missing depends on which optional arguments a call has and on everything converted after it", "anchors": ["paconvert/base.py:enable_utils_code", "paconvert/api_matcher.py", "paconvert/utils.py:UtilsFileHelper"]}
{"id": "C117", "title": "APIs with their own rule are converted by that rule", "statement": "A call of torch.Tensor.max, min, rename, split or stft, torch.chain_matmul, torch.hub.load, transformers.PreTrainedModel, torch.testing.make_tensor, setuptools.setup, apply_rotary_emb_func, a torchvision model that takes weights, or a C++/CUDA extension is answered as the rule of exactly that API says: with the code the rule produces, unchanged, not converted, or with the exception it raises. The state shared between calls changes only as the rule says, and helper code is registered when the produced code uses it.", "quantifier": "every call of one of these APIs, as a function or as a method, all arguments, every state of the conversion", "why_tests_cant": "the rules branch on the number, kind and names of the arguments of each call and on earlier calls of the same conversion; a test shows single calls", "anchors": ["paconvert/api_matcher.py:TensorMaxMatcher", "paconvert/api_matcher.py:TensorMinMatcher", "paconvert/api_matcher.py:TensorSplitMatcher", "paconvert/api_matcher.py:TensorRenameMatcher", "paconvert/api_matcher.py:SetUpMatcher", "paconvert/api_matcher.py:CUDAExtensionMatcher", "paconvert/api_mapping.json"]}
{"id": "C118", "title": "Names and attributes that are not called are replaced as the tables say", "statement": "A name of a torch API that is not called (a base class, a dtype, a function passed as an argument) is replaced by the name the API has in paddle, and helper code it needs is registered. A member of such a name becomes the member of the new name. Attributes of tensors stay, become a call of the method of the same name, or get a remark, and which of the three is fixed for each attribute. Nothing else is put into the file. Two sorts of use break this: an assignment to v.real becomes an assignment to a call, and a member of an API whose row has no name raises an exception.", "quantifier": "every name and attribute in every file, every state of the conversion, every row of the tables that gives a name", "why_tests_cant": "the tables have more than a thousand names, each may appear in any place of any file, and the result depends on what the file imports", "anchors": ["paconvert/transformer/basic_transformer.py:visit_Attribute", "paconvert/transformer/basic_transformer.py:trans_class_attribute", "paconvert/base.py:get_paddle_api", "paconvert/api_mapping.json", "paconvert/attribute_mapping.json"]}
{"id": "C119", "title": "The helper functions converted code uses are written where it finds them", "statement": "When a conversion succeeds, every helper text that a converted call or name of any file needs is on the disk: for a directory in paddle_utils.py of the output, for a single file as a block inside the converted file. Each text is there once, and only helper texts of API classes are there. If none is needed a single converted file is the converted text and nothing else.", "quantifier": "every directory tree and every file, every option, every order of listing, every parser, printer and formatter, provided that no two helper texts have the same hash", "why_tests_cant": "the requests are made anywhere in any number of files, pass through a registry shared by the whole process, and are written at the end of the run", "anchors": ["paconvert/converter.py:run", "paconvert/converter.py:transfer_node", "paconvert/base.py:enable_utils_code", "paconvert/utils.py:add_code", "paconvert/utils.py:write_code", "paconvert/main.py:main"]}
{"id": "C120", "title": "What the converted text of a file depends on (order independence violated)", "statement": "The converted text of a file should not depend on the other files of the project nor on the order in which a directory is listed. It depends on what was converted before only through three things: how many temporaries were numbered, which C++ extensions were built, and which classes use them. Counts, API tables, imports of other files and requested helper code have no influence. These three do matter: with two orders of listing the same project gives two results.", "quantifier": "every file, every text, every two states of the converter that agree in the three things, every parser, printer and formatter", "why_tests_cant": "compares two runs over all earlier histories of the process; a test sees one history", "anchors": ["paconvert/converter.py:transfer_node", "paconvert/transformer/basic_transformer.py:BasicTransformer", "paconvert/transformer/custom_op_transformer.py:CPP_EXTENSION_LIST", "paconvert/api_matcher.py:SetUpMatcher", "paconvert/utils.py:get_unique_name"]}
{"id": "C121", "title": "What a failed conversion leaves behind (helper functions missing)", "statement": "If the conversion of a project stops with an exception although nothing is in the way of the output, it is the exception of converting one of its files. The files converted before that one are in the output with their whole new text; no other file is created, changed or removed. Converted files should then still find the helper functions they use; this is violated: helper code is written only when all files are done, so one file that does not parse leaves converted files without paddle_utils.py. A file that can never be converted makes the conversion of the whole project fail.", "quantifier": "every project tree, every order of listing, every file at which the conversion fails, every conversion function", "why_tests_cant": "ranges over every point at which a conversion can stop and every layout of the project", "anchors": ["paconvert/converter.py:Converter.run", "paconvert/converter.py:Converter.transfer_dir", "paconvert/converter.py:Converter.transfer_file", "paconvert/utils.py:UtilsFileHelper.write_code"]}
{"id": "C122", "title": "--no_format and --mode min leave the code unformatted (helper code of a single file brings isort)", "statement": "With --no_format or with --mode min, black and isort have no influence on a converted directory, whatever they do: the outcome and all files are the same, paddle_utils.py excepted. For a single file the same should hold; it does when the file needs no helper code, and is violated otherwise: inserting helper code sends the whole file of the user through isort. Without the options, a formatter that raises an exception is as good as one that returns its text unchanged.", "quantifier": "every disk, every pair of formatters, all options of the command", "why_tests_cant": "ranges over every behaviour of the formatters, every project and every combination of options", "anchors": ["paconvert/main.py:main", "paconvert/converter.py:Converter.transfer_file", "paconvert/converter.py:Converter.run", "paconvert/utils.py:UtilsFileHelper.write_code"]}
{"id": "C123", "title": "What the log of a conversion says (100.00% with uses left; tables hidden at level WARNING)", "statement": "The summary printed for a project shows, at every log level, the number of recognised uses, of converted ones and of the others; they add up, and the last is the total of the list of unsupported APIs. The tables requested with --show_all_api and --show_unsupport_api contain every entry exactly once with its number of uses, the most frequent first, ties in the order of recognition. A requested table should be shown; violated with --log_level WARNING, which hides all of them. The rate should be shown as 100.00% only if everything was converted; violated: it is shown (up to equality) exactly if at most one use in 20000 was not converted, whatever the rounding errors of the arithmetic.", "quantifier": "every run of the command on every disk, all options of the log, every rounding that satisfies IEEE 754", "why_tests_cant": "ranges over every project, every combination of counts and every rounding behaviour", "anchors": ["paconvert/converter.py:Converter.run", "paconvert/utils.py:log_info", "paconvert/utils.py:log_warning", "paconvert/main.py:main"]}
{"id": "C124", "title": "--separate_convert: several projects, one output (files of the same name lost, helpers in a stranger's file)", "statement": "With --separate_convert every project in the input directory is converted, one after the other. If all entries are directories and nothing is in the way, a file of the output is the converted file of the last project that has a file at that relative path, the directories of all projects are there, and no other path changes apart from paddle_utils.py. The converted files of every project should be kept; violated: the file of an earlier project is overwritten by one of the same name. Helper code should go to its project; violated if the first entry is a file: the helper code of a later project is inserted into the copy of that file, or, if the output did not exist, the copy is removed and the command fails.", "quantifier": "every directory of projects, every order of listing, all options, every conversion function of files", "why_tests_cant": "ranges over every number and layout of projects and every order in which the system lists them", "anchors": ["paconvert/main.py:main", "paconvert/converter.py:Converter.run", "paconvert/converter.py:Converter.transfer_dir", "paconvert/utils.py:UtilsFileHelper.__new__"]}
{"id": "C125", "title": "A project without torch is copied", "statement": "Converting a directory whose Python files import no torch package, probe none and load no C++ extension puts every file that takes part at its place in the output: a Python file as its tree is printed and formatted, requirements.txt with torch replaced, every other file unchanged. No import of paddle and no helper code is added, no paddle_utils.py is written, nothing else on the disk changes but the directories made on the way, and the report counts no API. If printing and formatting give the Python files back, the output is the input.", "quantifier": "all directory trees, listing orders, orders of sets, exclude patterns, output places apart from the input, parsers, printers and formatters; all files that meet the conditions", "why_tests_cant": "One must rule out any change over every project and every order in which its files are visited; a test converts a few projects.", "anchors": ["paconvert/converter.py: run, transfer_dir, transfer_file", "paconvert/transformer/import_transformer.py: ImportTransformer", "paconvert/transformer/basic_transformer.py: BasicTransformer", "paconvert/utils.py: UtilsFileHelper.write_code"]}
{"id": "C126", "title": "A project of several is converted as if alone (violated: extensions and classes of earlier projects count)", "statement": "With --separate_convert, a project is converted as a command for it alone would convert it on the disk the earlier projects left, with the input as it was, provided the earlier projects import no torch package. Expected for all earlier projects but not true: a C++ extension or a wrapper class that an earlier project defines makes imports of the same name in a later, unrelated project disappear or change.", "quantifier": "all options with --separate_convert, projects in any number and listing order, disks, orders of sets, parsers, printers and formatters that meet the conditions", "why_tests_cant": "Tables of the module outlive a conversion; whether anything in them reaches a later project must be ruled out for every sequence of projects.", "anchors": ["paconvert/main.py: main", "paconvert/converter.py: Converter", "paconvert/transformer/custom_op_transformer.py: CPP_EXTENSION_LIST, AUTOGRAD_FUNC_NODES", "paconvert/transformer/import_transformer.py: ImportTransformer"]}
{"id": "C127", "title": "Rotary embeddings are rotated as flash_attn does (violated for longer tables)", "statement": "The function converted programs call for flash_attn's apply_rotary_emb_func turns, at every position and in every head, the pairs of components by the angle of the position and leaves the remaining components, if the tables of cosines and sines have exactly one row per position; the result has the shape of the input. Expected but not true: the tables may have more rows than the sequence, as flash_attn allows; every such call fails.", "quantifier": "all numbers of batch entries, positions, heads and components, all table contents, every arithmetic with the sign rules of floating point", "why_tests_cant": "A test fixes shapes and compares numbers; the formula must hold for every shape and every way numbers are rounded.", "anchors": ["paconvert/api_matcher.py: FAApplyRotaryEmbFuncMatcher.generate_utils_code"]}
{"id": "C128", "title": "torch.jit.save keeps the path of the model (violated for directories with a dot)", "statement": "torch.jit.save(m, f) becomes paddle.jit.save with the text of f before its last dot: a file name with a suffix loses just the suffix, a path without dots is kept. Expected but not true: a path whose last component has no suffix is kept; if a directory before it has a dot in its name, everything after that dot is lost ('./model' becomes the empty path).", "quantifier": "all argument texts, all paths, suffixes and directory names", "why_tests_cant": "Tests save to a few fixed names with a suffix.", "anchors": ["paconvert/api_matcher.py: JitSaveMatcher.generate_code", "paconvert/api_mapping.json: torch.jit.save"]}
{"id": "C129", "title": "Numbers of threads are read back (violated for get_num_threads)", "statement": "After any sequence of torch.set_num_threads and torch.set_num_interop_threads calls the converted program reads as number of interop threads the one set last. Expected but not true: so is the number of threads; the converted program gets the text of the number. Expected but not true: the number of interop threads can be read without having been set; the converted program stops with a KeyError.", "quantifier": "all sequences of calls, numbers and initial environments", "why_tests_cant": "The value depends on the whole history of calls and on the environment of the process.", "anchors": ["paconvert/api_matcher.py: GetNumThreadsMatcher, GetNumInteropThreadsMatcher, SetNumThreadsMatcher, SetNumInteropThreadsMatcher"]}
{"id": "C130", "title": "The local rank of a process (violated on every machine but the first)", "statement": "os.environ.get('WORLD_SIZE') becomes the number of processes of the launch. os.environ.get('LOCAL_RANK') becomes the rank among all processes: it is the number of the process on its machine exactly on the first machine. Expected but not true: it is so on every machine; on the others it is at least the number of processes per machine, so that no device has that number. The default given is dropped.", "quantifier": "all launches with any number of machines and processes per machine, all processes, all default arguments", "why_tests_cant": "Tests run on one machine, where the two numbers agree.", "anchors": ["paconvert/api_matcher.py: OsEnvironGetMatcher.generate_code", "paconvert/api_mapping.json: os.environ.get"]}
{"id": "C131", "title": "Every name that generated code reads exists (violated by three APIs)", "statement": "In the code that replaces a call, every name that does not come from the call's own arguments is a keyword or built-in of Python, the package that replaces the package of the API (which the converted file imports), a name the code itself introduces, or a name of the helper written for it. Expected but not true of three APIs: torchvision.io.decode_jpeg without a device reads a name cpu; torch.index_copy reads a name index whatever tensor is passed; os.environ.get reads paddle in files that import only packages that become another one.", "quantifier": "all rows of the mapping with a generator, all receivers and arguments of a regular call", "why_tests_cant": "Which names occur depends on which of the parameters are given and on the imports of the file; tests run a few calls in files that import torch and happen to define the names.", "anchors": ["paconvert/api_matcher.py: generate_code of every matcher", "paconvert/transformer/import_transformer.py: ImportTransformer.visit_Module", "paconvert/base.py: BaseMatcher.enable_utils_code"]}
{"id": "C132", "title": "The helper file works for every set of helpers (violated by two helpers and three hidden names)", "statement": "Whichever helpers a project needs and in whatever order they are written, every name of the helper file stands for its own helper's definition, and the names that the file reads but nothing binds are exactly those listed for get_enum and torch.onnx.export. Expected but not true: there are none; the helper of get_enum always reads warnings without importing it. Every helper name that generated code reads is brought by 'from paddle_utils import *'. Expected but not true of three: softmin, set_num_threads and set_num_interop_threads call helpers whose names begin with an underscore, which that import never brings.", "quantifier": "all selections, orders and repetitions of helper texts, all calls", "why_tests_cant": "There are more than 2^40 sets of helpers, and the tests run the converted file together with its helpers in one namespace.", "anchors": ["paconvert/api_matcher.py: generate_utils_code of every matcher", "paconvert/utils.py: UtilsFileHelper", "paconvert/base.py: BaseMatcher.enable_utils_code"]}
{"id": "C133", "title": "A helper's name means the helper (violated in files with a name of their own)", "statement": "In a converted file that binds no such name itself, an exported name of a helper means that helper, whichever helpers were written. Expected but not true: in every converted file; a class LSTMCell of the user's own that wraps torch.nn.LSTMCell becomes one that wraps itself, and a variable named paddle is what the converted calls are made on.", "quantifier": "all selections of helpers, all statements of the file, all names", "why_tests_cant": "Whether a name is taken depends on the user's file, which tests write themselves.", "anchors": ["paconvert/base.py: BaseMatcher.enable_utils_code", "paconvert/api_matcher.py: LSTMCellMatcher", "paconvert/transformer/basic_transformer.py: BasicTransformer"]}
{"id": "C134", "title": "PositiveDefiniteTransform maps every matrix (violated for batches)", "statement": "The object converted programs use for torch.distributions.transforms.PositiveDefiniteTransform maps a square matrix to the product of its lower factor with its transposed, element by element as torch does, and its inverse gives the lower triangle back, given a correct Cholesky factorisation. Expected but not true: a batch of matrices is mapped matrix by matrix; a batch whose number of matrices differs from their size fails or gets another shape, and otherwise different matrices are multiplied.", "quantifier": "all sizes, all element types with an addition and a zero, all batches", "why_tests_cant": "Tests use one matrix of one size.", "anchors": ["paconvert/api_matcher.py: TransformsPositiveDefiniteTransformMatcher.generate_utils_code"]}
{"id": "C135", "title": "Converting a converted file changes nothing more (violated)", "statement": "In default mode, if a file imports no module of audiotools and none of os, setuptools and einops, the imports of the rewritten file are left as they are by rewriting it once more: nothing is inserted, moved, renamed or removed. Expected but not true: this holds for every file. An import of os or setuptools moves to the front the second time, a module of audiotools is renamed a second time to one that does not exist, and with --mode min every conversion inserts import paddle once more.", "quantifier": "all files, all projects they stand in, all orders of sets", "why_tests_cant": "Tests convert a text once.", "anchors": ["paconvert/transformer/import_transformer.py: ImportTransformer.visit_Import, visit_ImportFrom, insert_import"]}
{"id": "C136", "title": "The summary of several projects (violated: the output counts as a project; no projects)", "statement": "After --separate_convert one line per project is printed, in the order of conversion, with its rate, then the number of projects that reach 100%, 95% and 90%: the comparisons of floating point numbers are exact for fewer than 10^11 uses. The number of projects is the number of converted entries if the output is apart from the projects. Expected but not true: it is so always. Without --out_dir, started in the directory of the projects, the output is counted as a project, so that a completely converted project makes 50% of 2; an empty directory gives ZeroDivisionError.", "quantifier": "all disks, all projects, all orders of listing, all roundings that meet IEEE 754", "why_tests_cant": "Tests call the converter, not the command, and check no printed number.", "anchors": ["paconvert/main.py: main"]}
{"id": "C137", "title": "A flag given as an expression decides in the new code (violated: direction of recurrent layers, stft)", "statement": "Where a call passes a flag as an expression that is not a literal, the new code follows the value of the expression. Expected but not true for bidirectional of LSTM and RNN: unless the text is the literal True, the new code is the code for the call without that argument, so that the layer never runs in both directions. For RNNBase the new layer runs in both directions exactly if the text mentions True, so that 'not True' is read as True. For stft, return_complex gives a real result only as the literal False, any other text is dropped. batch_first is handled for every expression: time_major receives its negation.", "quantifier": "all calls of these APIs that can be converted, all texts of the flag, all other arguments", "why_tests_cant": "Tests pass literals; the claim is about every text an argument can have.", "anchors": ["paconvert/api_matcher.py: RNNMatcher, RNNBaseMatcher, StftMatcher, GenericMatcher.generate_code", "paconvert/base.py: parse_args_and_kwargs"]}
{"id": "C138", "title": "What of a source file reaches the output: its syntax tree (violated: comments, layout and line ends are not kept)", "statement": "A conversion reads Python files and requirements.txt as UTF-8 text with universal line ends, and nothing of a Python file but its syntax tree has an effect: two conversions with the same arguments on two disks with the same files come out the same (counts, lists, exception, every file of the output directory), if the contents differ only in files that belong neither to the input nor to the output, or in the comments, layout and line ends of the input. A converted requirements.txt has no carriage returns. A project directory with a Python file or requirements.txt that is not UTF-8 is not converted to the end. Expected but not true: comments, layout and line ends of a file are kept.", "quantifier": "all pairs of disks, arguments (also several projects), parsers, printers, formatters, listing orders that depend on the names only, and all byte sequences as contents", "why_tests_cant": "It compares all pairs of inputs, and covers every byte sequence.", "anchors": ["paconvert/converter.py: transfer_file, transfer_dir, run", "paconvert/main.py: main"]}
{"id": "C139", "title": "The requested part of a data set is loaded from the given directory", "statement": "A call of torchvision.datasets.MNIST, FashionMNIST, CIFAR10, CIFAR100 or Flowers102 that gives its root and has no ** argument is replaced by 'import os' and a call of the Paddle data set. The mode follows the argument train: 'train' or 'test' where it is a literal, a conditional expression on the very text otherwise. For the MNIST family the image file and the label file are those of the same part, decided by the same text (train is True where it is left out); for CIFAR the archive is that of the data set asked for, and no mode is passed where train is left out; for Flowers102 the split 'val' becomes 'valid', any other literal stays, and for any other text a conditional expression decides. All files lie below the given root, every other argument is kept with its text, no argument occurs twice and none is added.", "quantifier": "all argument lists the five rows accept, positional and by keyword, all texts of the arguments", "why_tests_cant": "The texts and the combinations of arguments are unbounded; the mode and the files must agree for each.", "anchors": ["paconvert/api_matcher.py: CifarMatcher, MNISTMatcher, Flowers102Matcher", "paconvert/base.py: get_paddle_nodes, parse_args_and_kwargs, kwargs_to_str", "paconvert/api_mapping.json: torchvision.datasets.*"]}
{"id": "C140", "title": "Results requested in a tuple out= arrive in it in order", "statement": "A call with out= of torch.linalg.eig, lu_factor, lu_factor_ex, svd, lu, slogdet, inv_ex, cholesky_ex, torch.lu, svd, slogdet or triangular_solve is replaced by one Paddle call with the same arguments (renamed, with the required defaults where they are left out, without out) and one assignment per result, the k-th result to the k-th element of the very text given for out. torch.lu has a third result where get_infos is given and is not the literal False; torch.svd negates the text of some and hands out the third result conjugated and transposed. With out=None slogdet and inv_ex return the results. Violated for out=None of eig, lu_factor, lu_factor_ex, linalg.svd, linalg.lu and torch.lu: every such call subscripts None.", "quantifier": "all argument lists these rows accept, positional and by keyword, all texts of the arguments", "why_tests_cant": "The texts and the combinations of arguments are unbounded.", "anchors": ["paconvert/api_matcher.py: DoubleAssignMatcher, TripleAssignMatcher, LinalgLuMatcher, LuMatcher, SvdMatcher, SLogDetMatcher, LinalgInvExMatcher, LinalgCholeskyExMatcher, TriangularSolveMatcher", "paconvert/base.py: get_paddle_nodes, parse_args_and_kwargs, change_kwargs, set_paddle_default_kwargs, kwargs_to_str", "paconvert/api_mapping.json"]}
{"id": "C141", "title": "Converted learning-rate schedulers are attached to their optimizer and keep its rate and schedule", "statement": "A call of torch.optim.lr_scheduler.CyclicLR, LinearLR, MultiplicativeLR, ConstantLR or OneCycleLR is replaced by lines that make one Paddle scheduler, attach it to the very text given for optimizer and yield it. All other arguments are passed on under Paddle's names. LinearLR, MultiplicativeLR and ConstantLR start from the rate of that optimizer; torch's defaults that Paddle lacks (step_size_up, total_iters, factor a third) are filled in exactly where the argument is left out. ConstantLR becomes a piecewise schedule with factor times the rate up to total_iters and the rate afterwards. OneCycleLR gets total_steps, or the product of steps_per_epoch and epochs where there is none, and the last rate that follows from max_lr, div_factor and final_div_factor. Violated: every OneCycleLR call with total_steps and final_div_factor but without div_factor raises during conversion, and every one with total_steps and epochs (or steps_per_epoch) passes these on to a scheduler that has no such parameters.", "quantifier": "all argument lists these rows accept, positional and by keyword, all texts of the arguments", "why_tests_cant": "The texts and the combinations of arguments are unbounded; which defaults have to be filled in depends on the combination.", "anchors": ["paconvert/api_matcher.py: LRSchedulerMatcher, Optim2LrSchedulerMatcher, ConstantLRMatcher, OneCycleLRMatcher", "paconvert/base.py: get_paddle_nodes, parse_args_and_kwargs, change_kwargs, set_paddle_default_kwargs, kwargs_to_str", "paconvert/api_mapping.json"]}
{"id": "C142", "title": "Optimizers of the Adam family keep all hyperparameters and both betas", "statement": "A call of torch.optim.Adam, NAdam, RAdam or Adamax becomes one call of the Paddle optimizer of that name: betas is replaced by beta1 and beta2, the first and the second element of the very text given; every other argument is kept with its text under Paddle's name (parameters, learning_rate, epsilon); weight_decay, which Paddle does not default to zero, is 0.0 exactly where it is left out (Adamax needs none). No other argument is added and none occurs twice.", "quantifier": "all argument lists these rows accept, positional and by keyword, without ** and without names that are no parameters of the optimizer", "why_tests_cant": "The texts and the combinations of arguments are unbounded.", "anchors": ["paconvert/api_matcher.py: OptimAdamMatcher, GenericMatcher", "paconvert/base.py: get_paddle_nodes, parse_args_and_kwargs, change_kwargs, set_paddle_default_kwargs, kwargs_to_str", "paconvert/api_mapping.json"]}
{"id": "C143", "title": "Printing options: a profile sets what is not given (violated for other calls)", "statement": "torch.set_printoptions with a profile given as one of the literals 'default', 'short' and 'full' becomes a call of paddle.set_printoptions with exactly the options given (profile apart) and, for options not given, those of the profile as in PyTorch. Without a profile, only the options given should be set. Violated: every call without precision and profile sets precision=4, where PyTorch leaves the precision as it is; and a profile that is not one of these literals is dropped, so that every such call sets only the options given and the precision.", "quantifier": "all argument lists the row accepts, positional and by keyword, all texts of the arguments", "why_tests_cant": "The texts and the combinations of arguments are unbounded.", "anchors": ["paconvert/api_matcher.py: SetPrintOptionsMatcher, GenericMatcher", "paconvert/base.py: get_paddle_nodes, parse_args_and_kwargs, change_kwargs, set_paddle_default_kwargs, kwargs_to_str", "paconvert/api_mapping.json: torch.set_printoptions"]}
{"id": "C144", "title": "Calls with several results keep all of them, each computed from the arguments it depends on", "statement": "torch.std_mean and torch.var_mean become a pair: paddle.std (paddle.var) with exactly the arguments given and paddle.mean with the same arguments except unbiased and correction, which only the deviation has. torch.lu_unpack becomes a call of paddle.linalg.lu_unpack with exactly the arguments given under Paddle's names, out apart. If out is given and not None, the three results are assigned in order to elements 0, 1 and 2 of the very object given as out, with an empty tensor in place of the results that a literal False for unpack_pivots (the first) or unpack_data (the other two) asks to leave out; otherwise the call stands alone.", "quantifier": "all argument lists these rows accept, positional and by keyword, all texts of the arguments", "why_tests_cant": "The texts and the combinations of arguments are unbounded.", "anchors": ["paconvert/api_matcher.py: StdMeanMatcher, VarMeanMatcher, Lu_unpackMatcher", "paconvert/base.py: get_paddle_nodes, parse_args_and_kwargs, change_kwargs, kwargs_to_str", "paconvert/api_mapping.json: torch.std_mean, torch.var_mean, torch.lu_unpack"]}
{"id": "C145", "title": "VGG models keep their depth, batch normalization and the wish for weights (violated for a literal False)", "statement": "A call of one of the eight torchvision VGG models becomes a call of the Paddle function for the same depth with batch_norm=True exactly for the variants with batch normalization. weights given as any text but None becomes pretrained=True, otherwise pretrained is passed as given; weights and progress disappear, and nothing else is added or lost. Violated: a literal False in the place of weights, which torchvision reads as its older first parameter pretrained and so as no weights, always becomes pretrained=True.", "quantifier": "all argument lists these rows accept, positional and by keyword, all texts of the arguments", "why_tests_cant": "The texts and the combinations of arguments are unbounded.", "anchors": ["paconvert/api_matcher.py: VGGMatcher, GenericMatcher", "paconvert/base.py: get_paddle_nodes, parse_args_and_kwargs, change_kwargs, kwargs_to_str", "paconvert/api_mapping.json: torchvision.models.vgg11 .. vgg19_bn"]}
{"id": "C146", "title": "Sorting and histograms: both results come from the same arguments (violated for out=None)", "statement": "Tensor.sort becomes the pair of paddle.sort and paddle.argsort, both with the receiver as x and exactly the arguments given (dim as axis). torch.histogram and Tensor.histogram become the pair of histogram and histogram_bin_edges in the type of the input: both with the input, the bins and, if a range is given, min and max as its first and second element; weight and density reach the histogram and only it. If out is given, both results are assigned in order to elements 0 and 1 of it, each in the type of its element. Violated: out=None, which asks for no tuple, is treated as a tuple, and the new code indexes None.", "quantifier": "all argument lists these rows accept, positional and by keyword, all texts of the arguments and receivers", "why_tests_cant": "The texts and the combinations of arguments are unbounded.", "anchors": ["paconvert/api_matcher.py: SortMatcher, HistogramMatcher", "paconvert/base.py: get_paddle_nodes, get_paddle_class_nodes, parse_args_and_kwargs, change_kwargs, kwargs_to_str", "paconvert/api_mapping.json: torch.Tensor.sort, torch.histogram, torch.Tensor.histogram"]}
{"id": "C147", "title": "Attention: flash_attn's functions keep their arguments (violated for the default scale and the probabilities)", "statement": "flash_attn_func becomes element 0 of Paddle's flash_attention, and flash_attn_unpadded_func a check of the device followed by element 0 of flash_attn_unpadded, both with exactly the arguments given under Paddle's names. Violated twice: a call that asks for the attention probabilities still gets the first result alone; and a call of the unpadded function without a scale passes the square root of the head size where flash_attn uses its reciprocal, which is another number unless the heads have size 1.", "quantifier": "all argument lists these rows accept, positional and by keyword, without **kwargs; all texts of the arguments; for the scale, all head sizes with a rational square root", "why_tests_cant": "The texts and the combinations of arguments are unbounded, and so are the head sizes.", "anchors": ["paconvert/api_matcher.py: FAFlashAttnFuncMatcher, FAFlashAttnUnpaddedFuncMatcher, GenericMatcher", "paconvert/base.py: get_paddle_nodes, parse_args_and_kwargs, change_kwargs, kwargs_to_str", "paconvert/api_mapping.json: flash_attn.flash_attn_interface.flash_attn_func, flash_attn.flash_attn_interface.flash_attn_unpadded_func"]}
{"id": "C148", "title": "Pooling with random regions: the ratio becomes sizes of the output (violated for output_ratio=None)", "statement": "fractional_max_pool2d and fractional_max_pool3d of torch.nn.functional become Paddle's functions with exactly the arguments given, input as x and return_indices as return_mask. If output_ratio is given, output_size is instead the list of the last sizes of the input times the elements of the ratio, in order, and output_ratio is not passed. Violated: output_ratio=None beside an output_size, which in PyTorch means the output_size, loses the output_size and makes the new code index None.", "quantifier": "all argument lists these rows accept, positional and by keyword, without **kwargs; all texts of the arguments", "why_tests_cant": "The texts and the combinations of arguments are unbounded.", "anchors": ["paconvert/api_matcher.py: Fractional_Max_pool2dMatcher, Fractional_Max_pool3dMatcher, GenericMatcher", "paconvert/base.py: get_paddle_nodes, parse_args_and_kwargs, change_kwargs, kwargs_to_str", "paconvert/api_mapping.json: torch.nn.functional.fractional_max_pool2d, torch.nn.functional.fractional_max_pool3d"]}
{"id": "C149", "title": "Variables have the data and the flag asked for (violated for data that is a call, and for aliases)", "statement": "torch.autograd.Variable(data, requires_grad) becomes an assignment of the negated flag to stop_gradient of the data, followed by the data as the value; without a flag it becomes the data alone. If the data is a name, the value has exactly the flag asked for and no other object changes. Violated: data that is a call is evaluated twice, the flag goes to an object nobody keeps, and the value never requires gradients; and as the value is the data itself and not a new variable, the flag of the data changes, and without a flag data that requires gradients still does.", "quantifier": "all calls this row accepts, all texts of the arguments; all objects, flags and states of the program", "why_tests_cant": "The texts, and the objects that exist when the new code runs, are unbounded.", "anchors": ["paconvert/api_matcher.py: ADVariableMatcher", "paconvert/base.py: get_paddle_nodes, parse_args_and_kwargs", "paconvert/api_mapping.json: torch.autograd.Variable"]}
{"id": "C150", "title": "Comparisons in place compare with the operand and keep the type", "statement": "The methods eq_, ne_, gt_, ge_, lt_, le_, logical_and_, logical_or_ and logical_xor_ of tensors become two statements: the type of the tensor is kept in _x_dtype_, and the value is Paddle's in-place method of that comparison on the same tensor, cast in place to the kept type. The operand is passed as y and is the only argument; for the six comparisons it is made a tensor first. logical_not_ is converted the same way without an argument.", "quantifier": "all ten methods, all texts of receivers without backslashes and line breaks (others are garbled, C108), all argument lists the rows accept", "why_tests_cant": "The texts of receivers and operands are unbounded.", "anchors": ["paconvert/api_matcher.py: TensorInplaceReserveTypeMatcher", "paconvert/base.py: get_paddle_class_nodes, parse_func, parse_args_and_kwargs, kwargs_to_str", "paconvert/api_mapping.json: torch.Tensor.eq_ and the nine others"]}
{"id": "C151", "title": "Methods whose form changes keep receiver and arguments", "statement": "Tensor.hardshrink, lu_solve and ormqr become Paddle's functions with the receiver first and exactly the given arguments under Paddle's names. numel() and is_inference() become the attributes size and stop_gradient of the receiver. equal becomes the Python value of equal_all with the operand as the only argument. histc becomes histogram with exactly the given arguments, in the type of the receiver. type(dtype) becomes astype of that type; type() becomes the text of the type of the receiver, which is Paddle's name of the type and not PyTorch's.", "quantifier": "all these methods, all texts of receivers without backslashes and line breaks (others are garbled, C108), all argument lists the rows accept, and all texts of the arguments", "why_tests_cant": "The texts and the combinations of arguments are unbounded.", "anchors": ["paconvert/api_matcher.py: TensorFunc2PaddleFunc, Func2Attribute, EqualMatcher, HistcMatcher, TensorTypeMatcher", "paconvert/base.py: get_paddle_class_nodes, parse_func, parse_args_and_kwargs, change_kwargs, kwargs_to_str", "paconvert/api_mapping.json: torch.Tensor.hardshrink, torch.Tensor.lu_solve, torch.Tensor.ormqr, torch.Tensor.numel, torch.Tensor.is_inference, torch.Tensor.equal, torch.Tensor.histc, torch.Tensor.type"]}
{"id": "C152", "title": "Parallel models of fairscale keep their sizes; embeddings lose their initialization", "statement": "initialize_model_parallel becomes code that sets up Paddle's fleet with the given number of parts and pipeline length (1 if none is given), in which three distinct names are used. The numbers it computes use every process exactly if parts times pipelines divide the number of processes, and never more processes than there are. ParallelEmbedding keeps the number of embeddings and their width, but sets all weights to zero: init_method has no effect on the new code, so it is false that calls that initialize differently stay different. rms_norm of flash_attn becomes the fused norm over the last axis with the same tensor, weight and epsilon and no bias.", "quantifier": "all argument lists the rows accept, all texts of the arguments, all states of the counters of names, all numbers of processes, parts and pipelines", "why_tests_cant": "The texts, the counters and the numbers of processes are unbounded.", "anchors": ["paconvert/api_matcher.py: FSInitializeModelParallelMatcher, FSParallelEmbeddingMatcher, FARmsNorm", "paconvert/utils.py: get_unique_name", "paconvert/base.py: parse_args_and_kwargs", "paconvert/api_mapping.json: fairscale.nn.model_parallel.initialize.initialize_model_parallel, fairscale.nn.model_parallel.layers.ParallelEmbedding, flash_attn.ops.rms_norm.rms_norm"]}
{"id": "C153", "title": "Parts of tensors keep axis and position; a part of a buffer does not stay a part (violated)", "statement": "torch.select, torch.narrow_copy and torch.is_nonzero become code that reads the given tensor at the given axis, index, start and length, with a fresh name where one is needed, and copies to out= if given. torch.frombuffer becomes code that reads the given buffer with the given type, but count, offset and requires_grad have no effect: a call that asks for a part becomes the code for the whole buffer. torch.onnx.export keeps the model and the file and registers its helper; opset_version has no effect.", "quantifier": "all argument lists the rows accept, all texts of the arguments and all states of the counters of names", "why_tests_cant": "The texts and the combinations of arguments are unbounded.", "anchors": ["paconvert/api_matcher.py: SelectMatcher, NarrowCopyMatcher, IsNonzeroMatcher, FromBufferMatcher, OnnxExportMatcher", "paconvert/utils.py: get_unique_name", "paconvert/base.py: parse_args_and_kwargs", "paconvert/api_mapping.json: torch.select, torch.narrow_copy, torch.is_nonzero, torch.frombuffer, torch.onnx.export"]}
{"id": "C154", "title": "torch.load reads the file it is given (violated for file objects)", "statement": "A call of torch.load with any of map_location, pickle_module and weights_only becomes paddle.load with exactly one argument, the path, which is the text str() gives of the object that was passed as f. So a path stays that path, but it is false that the object itself is read: an open file or a buffer, which PyTorch accepts, is replaced by its description.", "quantifier": "all such argument lists, positional or by name, in any order, and all texts of the arguments", "why_tests_cant": "The texts and the combinations of arguments are unbounded.", "anchors": ["paconvert/api_matcher.py: LoadMatcher, GenericMatcher", "paconvert/base.py: parse_args_and_kwargs, change_kwargs, kwargs_to_str", "paconvert/api_mapping.json: torch.load"]}
{"id": "C155", "title": "Methods written out as functions keep receiver and arguments in their places", "statement": "Tensor.where becomes paddle.where of the condition, the receiver and the other operand, in this order. to_sparse_coo() makes all axes of the receiver sparse. Tensor.select and Tensor.narrow_copy become the code of the functions (C153) with the receiver as the tensor. float_power, as method and as function, casts the tensor to double precision, hands the exponent to the helper that the output registers, and copies to out= exactly if it is given.", "quantifier": "all texts of receivers without backslashes and line breaks (others are garbled, C108), all argument lists the rows accept, all texts of the arguments and all states of the counters of names", "why_tests_cant": "The texts and the combinations of arguments are unbounded.", "anchors": ["paconvert/api_matcher.py: TensorWhereMatcher, TensorToSparseCooMatcher, SelectMatcher, NarrowCopyMatcher, FloatPowerMatcher", "paconvert/base.py: get_paddle_class_nodes, parse_args_and_kwargs, parse_func", "paconvert/api_mapping.json: torch.Tensor.where, torch.Tensor.to_sparse_coo, torch.Tensor.select, torch.Tensor.narrow_copy, torch.Tensor.float_power, torch.float_power"]}
{"id": "C156", "title": "Bilinear forms, remote calls and decoded images keep their arguments (violated for bias=None)", "statement": "torch.nn.functional.bilinear becomes Paddle's function with both inputs under their new names, the other arguments unchanged, and the bias, if given, with a first axis of length one. bias=None, PyTorch's default given explicitly, becomes None.unsqueeze(0), which fails. torch.distributed.rpc.remote becomes the registered wrapper around rpc_async with exactly the given arguments, the function under its new name. torchvision.io.decode_jpeg with a device becomes Paddle's function with the other arguments, moved to that device.", "quantifier": "all argument lists the rows accept and all texts of the arguments", "why_tests_cant": "The texts and the combinations of arguments are unbounded.", "anchors": ["paconvert/api_matcher.py: FunctionalBilinearMatcher, RpcRemoteMatcher, DecodeJpegMatcher", "paconvert/base.py: parse_args_and_kwargs, kwargs_to_str", "paconvert/api_mapping.json: torch.nn.functional.bilinear, torch.distributed.rpc.remote, torchvision.io.decode_jpeg"]}
{"id": "C157", "title": "Sums of sparse tensors are converted exactly if an axis is given", "statement": "torch.sparse.sum over a given axis becomes paddle.sparse.sum with exactly the given arguments under Paddle's names. Without an axis, or with one whose text mentions None, the call is not converted and is left to the user, since the two libraries differ there.", "quantifier": "all argument lists the row accepts without ** arguments, and all texts of the arguments", "why_tests_cant": "The texts and the combinations of arguments are unbounded.", "anchors": ["paconvert/api_matcher.py: RequireDimMatcher, GenericMatcher", "paconvert/base.py: parse_args_and_kwargs, change_kwargs, kwargs_to_str", "paconvert/api_mapping.json: torch.sparse.sum"]}
{"id": "C158", "title": "Questions about a tensor ask the same tensor (is_signed violated for truth values); the adjoint exchanges the last two axes", "statement": "is_pinned, is_signed and dim_order become expressions about the receiver; torch.numel, torch.is_inference, torch.detach and torch.distributed.Backend become an attribute or method of the argument. The code for is_signed gives PyTorch's answer for every type of tensor except the type of truth values, which it calls signed. torch.adjoint becomes code with a fresh name whose permutation exchanges the last two axes and keeps all others, for every number of axes from two on.", "quantifier": "all texts of receivers without backslashes and line breaks (others are garbled, C108), all argument lists the rows accept, all texts of the arguments, all states of the counters of names, all numbers of axes and all types the two libraries share", "why_tests_cant": "The texts, the counters and the numbers of axes are unbounded.", "anchors": ["paconvert/api_matcher.py: Is_PinnedMatcher, TensorIsSignedMatcher, DimOrderMatcher, NumelMatcher, Is_InferenceMatcher, DetachMatcher, DistributedBackendMatcher, AdjointMatcher", "paconvert/utils.py: get_unique_name", "paconvert/base.py: get_paddle_class_nodes, parse_args_and_kwargs", "paconvert/api_mapping.json: torch.Tensor.is_pinned, torch.Tensor.is_signed, torch.Tensor.dim_order, torch.numel, torch.is_inference, torch.detach, torch.distributed.Backend, torch.adjoint"]}
{"id": "C159", "title": "Calls handed to a helper reach it with all their arguments", "statement": "Calls of torchvision's roi_align, roi_pool, ps_roi_pool and VOCDetection become calls of the helper the output registers for them, with exactly the given arguments and all of them by name, which these helpers rely on. torch.utils.set_module and torch.cuda.set_per_process_memory_fraction hand their arguments over by position, in the order the helper expects.", "quantifier": "all argument lists the rows accept (for the first four: without ** arguments) and all texts of the arguments", "why_tests_cant": "The texts and the combinations of arguments are unbounded.", "anchors": ["paconvert/api_matcher.py: BoxesConvertMatcher, VOCDetectionMatcher, UtilsSetModuleMatcher, SetPerProcessMemoryFractionMatcher", "paconvert/base.py: parse_args_and_kwargs, kwargs_to_str, enable_utils_code", "paconvert/api_mapping.json: torchvision.ops.roi_align, torchvision.ops.roi_pool, torchvision.ops.ps_roi_pool, torchvision.datasets.VOCDetection, torch.utils.set_module, torch.cuda.set_per_process_memory_fraction"]}
{"id": "C160", "title": "Softmax of a sparse tensor is taken in the requested type", "statement": "A call of torch.sparse.softmax becomes one of paddle.sparse.nn.functional.softmax with its arguments under their new names. If it asks for a type of the elements, a line before it gives the tensor with elements of that type a new name, and the call gets that name in place of the tensor and no type.", "quantifier": "all argument lists the row accepts, without ** arguments and without arguments the function does not have, and all texts of the arguments", "why_tests_cant": "The texts and the combinations of arguments are unbounded.", "anchors": ["paconvert/api_matcher.py: SparseSoftmaxMatcher, GenericMatcher", "paconvert/api_mapping.json: torch.sparse.softmax"]}
