# Formal model of PaConvert: design

Source modelled: `/repo/paconvert` (Python). Prover: Coq 8.16.1, standard library only.
Everything lives in `rocq/theories`:

* model files hold definitions only; every definition cites the lines it models and
  states its simplifications;
* `*Spec.v` files hold the vocabulary of the theorems (what a user means by the
  property), written without the model's helper functions;
* `*Facts.v` and similarly named files hold proofs;
* `Properties*.v` hold the property theorems, named `C##_...`, each followed by
  `Print Assumptions`, and examples (`..._nonvacuous`) showing that the hypotheses can
  be met.

## Modelling conventions

* `str` is Coq's `string`, a finite sequence of 8-bit characters. Python strings
  are sequences of code points; every operation used by the modelled code
  (`replace`, `split`, `startswith`, `in`, slicing at found positions, `join`)
  behaves identically on UTF-8 bytes. Where a *character class* matters
  (`\w`, `isspace`, `strip()`, `splitlines`) the ASCII class is used; the
  theorems that depend on the class say so.
* `dict` is an association list in insertion order without duplicate keys.
* Exceptions are values (`Raise`, `Fail`); `None`, `"misidentify"`, `"unchange"`,
  `"delete"` are constructors of a result type.
* Loops that need not terminate get explicit fuel and an explicit result for
  exhausted fuel that is never identified with a normal one. The theorems quantify
  over every fuel. Python's recursion limit is such a fuel (`rec_limit`).
* External code is a parameter over which the theorems quantify: see "Oracles".
* Regular expressions fixed in the source are hand-translated to a function next
  to a comment with the pattern.

## What is modelled

| Source | Lines | Model | Simplifications |
|---|---|---|---|
| `converter.py` | `mark_unsupport`, `mask_change_prefix_apis` 463-546 | `Marker.v` | ASCII classes |
| `converter.py` | requirements branch 416-424 | `Requirements.v` | none |
| `converter.py` | `__init__`, `transfer_node`, Python branch of `transfer_file`, counters and returned pair of `run`, unaligned-API table | `Converter.v` | each path converted once; exact division for the rate; log output omitted |
| `converter.py`, `utils.py` | `run`, `transfer_dir`, `transfer_file`, `write_code` on the file system | `FileTree.v` | normalised absolute paths; no links to existing files, permissions, full disks or other processes |
| `converter.py` | 369-370, 421-422: opening a Python file or requirements.txt as text | `TextFile.v` | strict UTF-8 and universal line ends; `write_code` (utils.py:155) opens the file it has just written with the encoding of the locale, taken to be UTF-8 |
| `main.py` | 137-171 `--exclude_packages`, multi-project counts | `Converter.v` | argument parsing omitted |
| `utils.py` | `UniqueNameGenerator`, `UtilsFileHelper` | `UtilsFile.v` | `hash` is an oracle |
| `base.py` | `record_scope`, `insert_scope` on one block | `Scope.v` | statements are (identity, dump) pairs |
| `base.py` | `BaseTransformer`: visitors, `get_full_attr`, scope lookup, `record_scope` on trees | `Ast.v`, `Walk.v`, `ImportPass.v`, `BasicPass.v` | nodes other than names, attributes, calls and imports are a kind with named fields |
| `base.py` | `BaseMatcher.parse_args_and_kwargs`, `change_kwargs`, defaults, `parse_func` | `Args.v`, `Generate.v` | an argument is its source text with two flags |
| `import_transformer.py` | all | `ImportPass.v` | iteration order of sets is an oracle |
| `basic_transformer.py` | all but the tensor-method bookkeeping in comments | `BasicPass.v`, `Lookup.v` | matchers are oracles there (`benv`) |
| `custom_op_transformer.py` | both passes | `CustomPass.v` | none |
| `tensor_requires_grad_transformer.py` | not modelled | | the pass is not in the default list |
| `api_matcher.py` | `GenericMatcher`, prefix and name changes, legacy loss flags, `requires_grad` | `Args.v` | |
| `api_matcher.py` | `generate_code`/`get_paddle_nodes` of 127 classes (486 rows of `api_mapping.json`) | `Generate.v` (language), `GenerateData.v` (bodies, generated), `GenerateRows.v` | template text is kept, helper code is recorded as used or not used |
| `api_matcher.py` | the 15 other classes named by rows of `api_mapping.json` | `Special.v` | `repr` treats all bytes of 128 and above as printable |
| `api_matcher.py`, `base.py` | `get_paddle_api`, `get_paddle_nodes`, `get_paddle_class_nodes`, `get_paddle_class_attribute_nodes` of all classes the tables name, as the environment of the pass | `Shipped.v` | one request for helper code per call of a method; the name is asked for before the arguments are parsed |
| `main.py`, `converter.py`, `utils.py` | one conversion of a new process with the shipped matchers, from the disk to the disk | `Program.v` | the helper texts are put into the registry after all files are converted, in the order of the requests, instead of one by one |
| `main.py` | `main`: options, `--run_check`, `--separate_convert` | `Main.v`, `Summary.v` | the log options and the Excel file are left out, and what is printed before an exception; `--exclude_packages` is in C85 |
| `converter.py` | the log after a conversion: tables, summary, rate | `Report.v` | the Excel files and the speed are left out; if the table of unaligned APIs raises (C34), the messages before it are lost |
| `api_matcher.py` | helper functions written into `paddle_utils.py`: those of C92, C95-C106, C127, C129 and C134; their names: all helper texts, as trees | `Helpers.v`, `Helpers2.v`, `Helpers3.v`, `Special.v`, `HelperTexts.v` | calls of paddle are recorded, tensors are given by the data the function looks at (shape, rows, elements in order, exact rationals) |
| `api_matcher.py` | `generate_code` of classes no row names; the other helper functions (RNN cells, data sets, attention, optimisers, `allclose` messages) | not modelled | |
| `api_mapping.json`, `attribute_mapping.json`, `api_alias_mapping.json`, `api_wildcard_mapping.json`, `global_var.py` | all rows | `TablesData.v` (generated) | unused fields left out |
| `example_code.py`, `legacy/` | not modelled | | sample data, unused code |

`HelperTexts.v` is the output of `tools/helpertexts.py` (Python's own parser on the texts in `generate_utils_code`).
`TablesData.v` is the output of `tools/gentab.py`; `GenerateData.v` is the output of
`tools/emitgen.py`, which translates the method bodies with `tools/trans.py` (Python's
own parser on the source text; nothing of the project is run). Both files are committed
and can be compared with the source by reading.

## Oracles

Every theorem that mentions them quantifies over all functions of the type.

| Where | Oracle | Stands for |
|---|---|---|
| `UtilsFile.v` | `hash` | Python's randomised string hash |
| `ImportPass.v` | `exists_path` | which files exist |
| `ImportPass.v`, `Converter.v` | `set_order` | iteration order of sets |
| `BasicPass.v` (`benv`) | `foreign`, `mentions_sys_path`, `parse_expr` | questions about `astor.to_source`, `ast.parse` |
| `BasicPass.v` (`benv`) | `api_of`, `attr_nodes`, `call_nodes`, `class_nodes` | the matchers, with an arbitrary shared state |
| `Shipped.v` (`tools`) | `print`, `parse`, `helper_code`, `helper_imports` | `astor.to_source`, `ast.parse`, texts of helper functions |
| `Converter.v` (`setup`) | `py_parse`, `py_unparse`, `black_format`, `isort_format`, `cpp_extensions`, `rec_limit` | libraries, interpreter |
| `FileTree.v` | `convert`, `order`, `search`, `isort`, `codes_of` | conversion of one text, `os.listdir` order, `re.search`, `isort.code`, helper registry |

## Plan per property

| Property | Modelled code | Proof |
|---|---|---|
| C01-C05 | `mark_unsupport`, `mask_change_prefix_apis` as a fold over lines | induction over the lines with the state (mark_next_line, in_str) generalised; masking by induction over the scan |
| C06, C07 | requirements branch, Python `str.replace` | induction on the text; absence of the pattern by an argument on overlaps; witness for C07 |
| C08, C09, C12, C13 | `UtilsFileHelper` as a state machine | invariant over operation lists; witnesses for the violated ones |
| C10, C11, C50, C51 | `_find_import_insert_idx`, `write_code` | loop invariants on the index; splice lemma on lines; witnesses |
| C14 | `UniqueNameGenerator` | invariant on the counter table and injectivity of `key_n` |
| C15-C17 | `record_scope`, `insert_scope` on one block | induction on the descending index list, closed-form specification of the block |
| C18 | `scope_body_index` | induction over the stack of frames |
| C19 | all four passes | the passes run with visitors that refuse wrong bookkeeping give the same result as the real ones |
| C20-C22, C52, C53 | `parse_args_and_kwargs` incl. removal while iterating | induction over the keyword list with explicit Python list-iterator semantics |
| C23-C25, C54, C58 | `change_kwargs`, `set_paddle_default_kwargs`, `GenericMatcher`, generated tables | dictionary lemmas; `forallb` over the generated table lifted with `forallb_forall` |
| C26-C28, C57 | `ChangePrefixMatcher`, `ChangeAPIMatcher` | dictionary lemmas; finite check over the generated table |
| C29, C30, C56, C59 | lookups of `BasicTransformer` over the generated tables | finite checks lifted to all strings |
| C31-C35 | counters of the visitors, `Converter.run`, `main` | invariant over the walk (`BasicFacts.v`), induction over the projects |
| C36-C41, C60-C63, C65-C67 | `ImportTransformer`, name resolution | induction over alias lists, blocks and trees; witnesses |
| C42 | all four passes and marking | a walk that never finds a name changes nothing (`WalkIdle.v`, `QuietFacts.v`) |
| C43, C64 | `get_full_attr`, expansion of names by the imports | induction over trees; witness |
| C44, C45, C69-C74 | `run`, `transfer_dir`, `transfer_file` over a model file system with a log of operations | induction over the directory tree; invariants on the log |
| C46-C48, C55 | individual matchers | case analysis, witnesses |
| C49 | `MakeTMatcher`: `str` of a list of texts, Python's `repr` of strings | no printed text has an apostrophe left, and lengths grow at every character that is escaped |
| C68 | conversion pass | invariant over the walk: kinds and statement lists are kept |
| C75-C77 | `generate_code` of 127 matchers | symbolic execution of the bodies (`GenerateSym.v`), proved sound for every call (`GenerateSound.v`); the finite set of symbolic results is checked by computation and lifted to all calls |
| C78, C79 | the texts of C75-C77 against a grammar of the part of Python that occurs in them (`Grammar.v`, independent of the model) | a parser for symbolic texts (`GrammarCheck.v`) is proved sound (`GrammarSound.v`) and run on all symbolic results; `operand` and `expression`, the texts accepted as arguments, are arbitrary parameters. Exceptions are tables, each entry witnessed by a computed call |
| C80, C81 | the conversion pass (`BasicPass.v`) against a reference conversion without a table of recorded statements (`Placed.v`, specification) | simulation by induction on the recursion limit (`PlacedWalk.v`): the table restricted to the slot of the current line equals the list the reference fills, all other entries are framed; every visitor is uniform in what was recorded before (`PlacedUniform.v`); insertion by descending index equals weaving (`ScopeFacts.v`). Assumptions: what the parser guarantees (`parsed`), matchers return expressions and delete nothing |
| C82 | the recognition in `finish_call`, `finish_attribute` (`BasicPass.v`) against rules on components (`RecogniseSpec.v`) | substring tests on the joined text are turned into statements about components (`RecogniseFacts.v`); the list of candidate classes is a filter of one fixed list. Side conditions: identifiers have no dots and are not called like the program's marker |
| C83 | the four functions that convert a recognised use, against a relation on answer, context, reply, requests and booking (`EffectSpec.v`) | case analysis on the answer; requests compose by a fold (`EffectFacts.v`) |
| C84 | both passes of `CustomPass.v`; the class definitions of a tree listed in reading order (`CustomSpec.v`) | induction on the walk: the list of the result is the list of the input without the remembered classes; inserted statements contain no class. Refuted: no use is left; only the class itself is meant |
| C85 | `exclude_packages` | induction on the list of names |
| C86, C87 | `WeightsMatcher`, `CUDAAndCppExtensionMatcher` | the loose parsing is a sequence of bindings; generic code for entries that only drop names |
| C88-C91, C93, C94 | the other matchers with their own argument handling (`Special.v`) | exact text for every argument list with distinct names; witnesses for what is lost |
| C92 | `TensorSplitMatcher` and its helper for integer sizes | arithmetic; `paddle.split` is assumed to require a number of sections that divides the length |
| C95-C105 | helper functions named by live rows (`Helpers.v`) against small specifications (`HelpersSpec.v`) | arithmetic, induction on lists, algebraic laws of matrices as hypotheses (met by integer matrices); the texts that call the helpers are computed with `Generate.v` |
| C106 | helper functions of classes no row names | the same; a check of all rows shows they are not reached |
| C107 | calls of the rows with class `GenericMatcher`, from parsing the arguments to the text | the block interpreted in `Generate.v` is shown to give the text of `Args.generic_code` (`GenericBridge.v`); that no two names clash is computed for every row; then C20 and C54 |
| C108 | `parse_func` for the rows of all tables | induction on the receiver text; all names in the tables are cut at most once, at their start; witness |
| C109 | all classes named by rows as the `benv` of the pass (`Shipped.v`) | case distinction over the classes; then C68 and C80 |
| C110 | recognised calls with rows of three kinds | C82, C107, C26 and the effects of C84 composed; the tables enter by computed checks of all rows |
| C111 | the same for exceptions | C75 and the reprinted texts; witness |
| C112 | `ChangePrefixMatcher` with `--mode min` | as C110 with the written name; witness |
| C113 | how the texts of C75-C77 are read (`reads`, the expression part of the Python grammar with its precedence) and what they compute in an arbitrary `algebra` whose laws are listed (`MeaningSpec.v`, independent of the model; formulas from the PyTorch documentation); values ignore dtype, shape and broadcasting, and arguments that share memory with the changed tensor | a parser for symbolic texts (`MeaningCheck.v`) is proved sound (`MeaningSound.v`, `MeaningValue.v`) and run on all symbolic results of the rows; each symbolic value equals the formula by the laws. Witness for xlogy |
| C114 | as C113, for the keywords of the call to one paddle function | as C113; witnesses |
| C115 | a conversion as a sequence of questions to the shipped matchers (`asked`, `ShippedSpec.v`), with the counters each answer leaves | the pass only asks questions (`ShippedNames.v`); every counter only grows, and a text binds only names drawn between the counters before and after its question (`Names.v`, `GrammarSound.v`) |
| C116 | as C115, with the list of registered helper code; `helper_needed` names the calls of the three rows that need it only sometimes | symbolic results of all rows (`ShippedHelpers.v`); the list only grows |
| C117 | `own_rule` (OwnRules.v) links the API names to the rules of Special.v; questions are those of C115 | the rows of these names have the class with that rule (table computation), then the answer of the class by cases (`OwnRulesFacts.v`) |
| C118 | the pass with the shipped tables; `new_name` (NameUses.v) says what an API is called in paddle; three lists of tensor attributes | recognition (C82), answer of the matchers by cases on the row, effect of the answer (C83); the sorts of attributes by computation on the table (`NameUsesFacts.v`). Two sorts of use refute the claim for themselves |
| C119 | `Program.v`: the file tree (C44), the passes (C42), the shipped matchers (C109) and the registry (C08) put together into one program; `needs` and `helper_texts` (ProgramSpec.v) say what the converted code is owed | the state of the matchers changes only by questions (C115), through all files by induction over the tree; needed texts are registered (C116), registered texts are kept and written (C08, C10, C44) |
| C120 | the converter with the shipped matchers (`Program.v`), run twice; `same_future` (Dependence.v) names the three things | relational induction over the traversal: every visitor and every matcher gives equal results and related states in related states (`DependFacts.v`). Order independence itself is refuted by one project listed in two orders |
| C121 | `run` on the file system, outcomes with exceptions | induction over the tree: each directory succeeds with the result of C44 or stops with the list of files converted so far (`FileTreeStop.v`); with the shipped matchers one project of two files loses its helper code |
| C122 | `Main.v`: the command with its options around `Program.v` | two runs in lockstep: the conversion of a file does not ask the formatters (`unformatted_text`), writing the helpers changes one path only (`flush_other`); refuted for a single file with the shipped matchers by computation |
| C123 | `Report.v`: the messages of `run`, with an arbitrary rounding; `ieee` (ReportSpec.v) says what is known of it | the counts are an invariant of every file and so of every run of the command (`ReportRun.v`); insertion sort; rational arithmetic for the rate |
| C124 | `each_project` (`Main.v`): `run` repeatedly in one process | the file system operations see the disk only (`blind`), so C44 applies to every project on the disk the earlier ones left; induction over the list of projects |
| C125 | `Program.program` over the disk; the converter starts idle and stays idle | induction over the conversions of C44, each step by C42 and C04; the registry of helpers stays empty |
| C126 | `Main.command` with the process tables carried from project to project | a project without torch leaves the tables as they were (C125); a conversion with empty tables is one of a new process; two counterexamples by evaluation |
| C127 | `Helpers2.v`: the helper on nested lists, elementwise operations and shape errors | induction over batch, sequence and heads; one row by positions of its halves |
| C128 | `Helpers2.before_last_dot`, the generated text by `Generate.v` | evaluation with symbolic arguments; splitting at the last dot |
| C129 | `Helpers2.v`: os.environ as a dictionary | induction over the calls; reading a printed number gives the number |
| C130 | `Helpers2.v`: processes of a launch, paddle's rank; the generated text by `Generate.v` | arithmetic |
| C131 | `GeneratedNames.v`: a reader of words in generated texts, where names come from; `HelperTexts.v` (generated by tools/helpertexts.py): the helper texts as trees | all paths of all rows checked with symbolic arguments; evaluation for the exceptions |
| C132 | `HelperTexts.v`, `HelperScope.v`: Python's names; | pairwise comparison of all statements, then induction over the list; monotonicity of unbound names |
| C133 | `HelperScope.stands_for`, star imports; the whole of `Converter.transfer_node` for the refutations | induction over the statements; evaluation |
| C134 | `Helpers3.v`: tensors as shape and elements, broadcasting matrix product, paddle's `.T` | element by element; shapes of a batch |
| C135 | `ImportPass.v` run on its own result | inserted and kept imports are plain, then C42; exact insertions (C61) |
| C136 | `Summary.v` over `Main.v` | counting by induction, rounding by IEEE bounds; touched paths (C45) for the second listing |
| C137 | `Generate.v` (code generation), `FlagSpec.v` | equations for single steps of the interpreter, then the run of each method on any dictionary of arguments; commutation of dictionary updates |
| C138 | `TextFile.v` (decoder, line ends), `Converter.v`, `FileTree.v`, `Main.v`; `TextSpec.v`, `LayoutSpec.v` | the decoder against RFC 3629 by induction on the bytes; a relation between two disks that every file operation preserves, through the whole run |
| C139 | `Generate.v`, `GenerateData.v` (the three matchers), `Args.v`; `DatasetSpec.v` | symbolic execution of the matchers on an unknown dictionary by one rule per construct, then an exact description of the dictionary by its changes |
| C140 | `Generate.v`, `GenerateData.v` (the nine matchers), `Args.v`; `OutSpec.v` | symbolic execution of the matchers as for C139, exact descriptions of renamed, completed and merged dictionaries, and that rows without unsupported arguments bind only their own parameters |
| C141 | `Generate.v`, `GenerateData.v` (the four matchers), `Args.v`; `LrSpec.v` | symbolic execution of the matchers as for C139 and C140, exact description of the renamed and completed dictionary |
| C142 | `Generate.v`, `GenerateData.v` (OptimAdamMatcher, GenericMatcher), `Args.v`; `AdamSpec.v` | symbolic execution as for C139, exact description of the renamed and completed dictionary as for C141 |
| C143 | `Generate.v`, `GenerateData.v` (SetPrintOptionsMatcher, GenericMatcher), `Args.v`; `PrintSpec.v` | symbolic execution as for C139, exact description of the completed dictionary |
| C144 | `Generate.v`, `GenerateData.v` (StdMeanMatcher, VarMeanMatcher, Lu_unpackMatcher), `Args.v`; `PairSpec.v` | symbolic execution as for C139, exact description of the renamed dictionary as for C141 |
| C145 | `Generate.v`, `GenerateData.v` (VGGMatcher, GenericMatcher), `Args.v`; `VggSpec.v` | symbolic execution as for C139, exact description of the dictionary of arguments |
| C146 | `Generate.v`, `GenerateData.v` (SortMatcher, HistogramMatcher), `Args.v`; `HistSpec.v` | symbolic execution as for C139, exact description of both dictionaries of arguments |
| C147 | `Generate.v`, `GenerateData.v` (FAFlashAttnFuncMatcher, FAFlashAttnUnpaddedFuncMatcher), `Args.v`; `FlashSpec.v` (the default scale 1/sqrt(headdim) is taken from flash_attn's documentation, over the rationals so that no axiom of the reals is used) | symbolic execution as for C142, then rational arithmetic |
| C148 | `Generate.v`, `GenerateData.v` (Fractional_Max_pool2dMatcher, Fractional_Max_pool3dMatcher), `Args.v`; `PoolSpec.v` | symbolic execution as for C142; renaming into a new dictionary is reduced to renaming by a row |
| C149 | `Generate.v`, `GenerateData.v` (ADVariableMatcher), `Args.v`; `VariableSpec.v` (both forms of the code as text, and what they do with objects and their stop_gradient) | symbolic execution as for C139, then induction over the list of objects |
| C150 | `Generate.v`, `GenerateData.v` (TensorInplaceReserveTypeMatcher, convert_tensors), `Args.v`; `InplaceSpec.v` | symbolic execution with the receiver and the name of the method in the state; the ten rows by computation |
| C151 | `Generate.v`, `GenerateData.v` (these five matchers), `Args.v`; `MethodSpec.v` | symbolic execution with the receiver and the name of the API in the state; rows by computation |
| C152 | `Generate.v`, `GenerateData.v` (these three matchers), `Args.v`; `ParallelSpec.v` | symbolic execution with the counters in the state; names by their first letters; the degrees by integer arithmetic |
| C153 | `Generate.v`, `GenerateData.v` (these five matchers), `Args.v`; `BufferSpec.v` | symbolic execution with the counters in the state; the refutation from two exact texts |
| C154 | `Generate.v`, `GenerateData.v` (LoadMatcher, GenericMatcher), `Args.v`; `LoadSpec.v` | symbolic execution; the renaming by induction over the arguments |
| C155 | `Generate.v`, `GenerateData.v` (these five matchers), `Args.v`; `FormSpec.v`, `BufferSpec.v` | symbolic execution with the receiver and the counters in the state; rows by computation |
| C156 | `Generate.v`, `GenerateData.v` (these three matchers), `Args.v`; `BilinearSpec.v` | symbolic execution; the new arguments as made_of; rows by computation |
| C157 | `Generate.v`, `GenerateData.v` (RequireDimMatcher, GenericMatcher), `Args.v`; `SparseSpec.v` | symbolic execution of both branches; the renaming by induction |
| C158 | `Generate.v`, `GenerateData.v` (these eight matchers), `Args.v`; `AskSpec.v` | symbolic execution; the permutation by induction-free list arithmetic for all lengths; the types by cases |
| C159 | `Generate.v`, `GenerateData.v` (these four matchers), `Args.v`; `HandSpec.v` | symbolic execution; rows and names of helpers by computation |
| C160 | `Generate.v`, `GenerateData.v` (this matcher), `Args.v`; `SoftSpec.v` | symbolic execution; the row by computation |

Properties marked "(violated)" in `properties.jsonl` are false of the code; the
theorem is then `..._refuted`, an existence statement with a concrete witness
computed in the model, together with a positive theorem under the side
condition that excludes the defect whenever there is a sensible one. Where a
property holds except for some rows of the tables, the exceptions are listed in the
`*Spec.v` file, the positive theorem excludes exactly these, and a second theorem
(`..._exceptions_are_real`) gives a witness for every one of them.

## Not claimed

* What generated code computes when run with paddle: there is no model of paddle, beyond
  what the specifications of C92 and C95-C106 say about single routines.
* `black`, `isort`, `astor`: arbitrary functions, so no property of the final layout.

## Trusted base

* Coq's kernel (and `coqchk`, run by the gate). `vm_compute` is used for the finite
  checks; it is part of the kernel. No `native_compute`, no plugins.
* `Print Assumptions` says "Closed under the global context" for every theorem in
  `Properties*.v`: no axioms, neither own ones nor the standard library's.
  `coqchk` reports seven parameters `Coq.ssr.ssrunder.Under_rel.*` of a sealed module of
  the standard library that is loaded indirectly; no theorem depends on them.
* The reading of the Python sources recorded in the comments of the model files, and
  the two generators above.
* The oracles listed above are quantified over, not assumed.

## Tests of the theorems

`seeded/LOG.jsonl` has one line per wrong program: the edited definition, the edit, the
claim it breaks, the theorems that failed, and the theorems that were tightened when
none did.
