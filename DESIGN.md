# Design of the formal model

Source: `/repo` (the crates `hooq`, `hooq-macros`, `hooq-helpers`, `test-helpers`, and the scripts). Prover: Coq/Rocq 8.16.1, standard library only.
Development: `rocq/theories`, logical name `Verif`. Build: `coq_makefile -f _CoqProject -o Makefile && make -j4` in `rocq/`.

## 1. Trusted base

* **The kernel of Coq 8.16.1**, including its virtual machine (`vm_compute` is used for the computed examples and for some refutations).
* **Axioms: none.** `Print Assumptions` stands under the theorems of the `Properties_*` files and prints
  `Closed under the global context` for every one of them. No axiom of the standard library is used.
  (The gate lists seven constants of `Coq.ssr.ssrunder`: they belong to a library module that is loaded with Coq, no theorem depends on them.)
* **The transcription.** That the definitions of section 2 say what the Rust code says. Each carries the file and lines it was
  read from. The code was read as text and never run; its recorded outputs in the repository were
  compared with the model. The evidence for the transcription is listed in section 6.
* **The specifications** of section 4 and the English of `properties.jsonl`: that the one says what the other means.
* **The oracles** of section 3. Theorems hold for every value of them; where a theorem needs a law of an oracle, the law is a visible
  hypothesis of that theorem, and an Example shows an instance.

## 2. Modelled code

| Module | Code (under `hooq-macros/src/impls` unless said otherwise) |
|---|---|
| `Base` | results and errors, association lists for `HashMap`, the counters (`inert_attr/context.rs` 33-64) and the monad that threads them |
| `Tokens`, `Paths` | token trees and spans of `proc_macro2`; `syn::Path`, `Meta`, `Attribute`; `utils/mod.rs`. The `::` between segments keep their spans where they were read from source |
| `Syntax`, `SyntaxInd` | the part of the `syn` syntax tree that the walker tells apart, its printer (`ToTokens`), `utils/get_attrs.rs`; induction principles |
| `Method` | `method/mod.rs` |
| `Render` | `method/render/mod.rs`, `method/render/meta_vars.rs` |
| `Context` | `inert_attr/context.rs`, `utils/function_info.rs` |
| `Attrs` | `inert_attr/parse.rs`, `inert_attr/mod.rs` |
| `CrateName` | `utils/get_hooq_crate_name.rs` |
| `Flavor` | `flavor/mod.rs`, `flavor/flavor_path.rs`, `flavor/presets/*.rs`, `flavor/toml_load/*.rs` |
| `TomlStore` | the process-wide cache of `flavor/mod.rs` 83-157, and the flavor look-up built on it |
| `RootAttr` | `root_attr/*.rs`, `mod.rs` (the entry point) |
| `Walker` | `walker/mod.rs`, `walker/hook_expr.rs`, `walker/walk_macro.rs` (the walk) |
| `EvalList` | `walker/walk_macro.rs` (the parse loop over macro arguments) |
| `Excerpt`, `ExcerptArgs` | `utils/source_excerpt.rs`, `utils/source_excerpt_macros.rs` |
| `Helpers` | `hooq-helpers/src/lib.rs` |
| `Io` | files, TOML values and commands as the scripts use them |
| `Sync`, `Books`, `NewProject`, `Mask` | `.github/scripts/sync.rs`, `docs/generate_mdbooks.rs`, `mdbook-source-code/new_project.rs`, `test-helpers/src/lib.rs` |
| `Conformance`, `Recorded_*` | no code: comparison with recorded expansions (section 6) |

Not modelled:

* the parsers of `syn`, `toml` and `proc_macro2`, and the spacing rules of `TokenStream::to_string` (oracles, section 3);
* parentheses that `syn` adds when it prints a tree whose parts bind too weakly: a rendered `a + b` in front of `?` prints as `(a + b)?`, in the model as `a + b?`.
  Only a method in replace mode can produce such a tree;
* wording and spans of error messages: an error is a tag with the data its message embeds;
* overflow of `usize`; spacing of punctuation (`Joint`/`Alone`);
* the macro shims of `hooq/src/lib.rs` and `hooq-macros/src/lib.rs`, which only convert token stream types and call the functions above;
* the order in which rustc expands macros, name resolution, types. What the generated code does when it runs is the subject of C51 and C52 only;
* for the macro, the file system and environment, apart from what the cache reads: the content of `hooq.toml` at the moment of a look-up is a parameter.
  All look-ups of one expansion see the same content.

## 3. Modelling decisions and oracles

* **Strings.** Names and literals are Coq `string`s read as UTF-8 bytes (Rust compares and sorts strings bytewise). The excerpt code
  counts `char`s; there a text is a list of Unicode scalar values (`list N`).
* **Syntax tree.** One constructor per variant of `syn::Expr`, `Stmt`, `Item` that the walker tells apart. Parts it never looks at
  (patterns, types, generics, visibility) are opaque token lists that the printer reproduces.
* **Macro arguments.** The walker reparses the tokens of a macro call with `syn`. A macro node of the model carries its tokens and the
  outcome of that parse (`None`: it does not parse), so that the walker is structurally recursive. The loop that computes the outcome
  is `EvalList`, over the four parsers of `syn` (`parsers`); `views` (used in C22) says that the outcome is the one of the loop.
* **`parse_quote!`** on a rendered hook is the field `ev_parse : tokens -> option expr` of `env` (`None` is its panic).
* **`TokenStream::to_string`** is the field `ev_str : tokens -> string` of `env`.
* **Flavor look-up inside attributes** is the field `ae_flavor`; `flavor_lookup` (`TomlStore`) is the function the code has there, and
  `real_lookup` in C42 says that the oracle is that one. `ae_mnv` is `syn`'s parser of `name = value`.
* **Provenance.** Where the walker replaces an expression by a rendered one, the model writes `EHook info orig res`: `res` is what the code
  has in that place, `orig` what it replaced. Model functions that inspect expressions see only `res`. The annotation lets a theorem
  say which part of the output is a hook, and prints as `res`.
* **`proc_macro_crate::crate_name`**, which reads `Cargo.toml`, is the argument of `hooq_crate_name`; its result reaches the presets as `ft_crate`.
* **Laws of the oracles** that some theorems assume, each satisfied by the instance in its Example: `reads_alike` (C44: the parser of `parse_quote!` does not look into
  string literals), `prints_start` (C46: a parsed expression prints from its first token on), `real_lookup` (C42), `no_call_after_cast` (C42_presets_refuted: `x as T.m()` is
  no expression), `reads_moved`, `reads_settings_moved`, `reads_paths_moved`, `reads_toml_still` (C50: parsers do not look at positions, and what hooq.toml holds is not in
  the file of the program). Those about `parse_quote!` hold together for `rust_parse` (C52_laws).
* **The scripts** run on a world of files and a record of what was done (`Io`). TOML, handlebars, commands and crates.io are oracles (`outside`, `web`, `place`). What C53 assumes
  of them is the record `tools`; `X_ex_tools` is an instance. A write that fails leaves the file as it was; two paths never name one file. Reading the command line is not modelled.
* **`&mut`** becomes returning the new value. The shared `Counter` is threaded as state. `syn::Result` and panics are constructors of `res`.
* **`LocalContextField`** is the chain of a value and the values it overrides.
* **`HashMap`** is an association list with distinct keys. Where the code iterates over one, the theorems quantify over all
  permutations (C25, C38).

## 4. Specifications

The specifications use the data types of the model (token trees, syntax trees, `Replace`/`Insert` methods) and the printer of the syntax tree.
Beyond that they use these functions of the model:

* `WalkSpec.expands` names the run a theorem speaks about, so it mentions `walk_item`; in the same way `ProgressSpec.became` mentions
  `walk_expr` (what the walker makes of one target) and `FlavorSpec.after_history` the cache after a series of look-ups.
* `WalkSpec.md_rendered` and `ProgressSpec.renders_to` mention `render_toks`. What rendering does is specified apart, in `RenderSpec` and `TextSpec`.
* `SettingSpec.in_effect` compares the context of a hook with the setting in force, through the accessors of the context.

They use neither the reader of attributes nor the parser of methods nor that of flavor names.

| Module | What it says |
|---|---|
| `SiteSpec` | the positions of a program where a hook can go (every `?`, `return v`, tail), in evaluation order, each with the frames that enclose it; the same function reads input and output |
| `ProgSpec` | all subexpressions, all hooks; `bare`: a program without hooks and hooq attributes |
| `MethodSpec`, `AttrSpec`, `SettingSpec` | how a method is written; what an attribute means; the setting in force under a list of frames: the innermost one, the scope of `skip` and `skip_all`, the enclosing function; the hook rules |
| `WalkSpec` | expansion, positions of input and output side by side, the numbering (`tally`) |
| `RenderSpec`, `TextSpec` | single-pass substitution, `$so_far` as a stack, the value of every variable |
| `NodeSpec` | every place of a program that can have attributes or is a macro call |
| `CountSpec`, `AlikeSpec` | what does not depend on the counters; outputs that differ in the numbers of counts only |
| `ShiftSpec` | writing attributes on the members instead of on the container; when two lists of attributes do not add to each other or set different things |
| `RewriteSpec` | when two lists of attributes amount to the same; programs that differ in attributes only |
| `MoveSpec` | moving the tokens of a program; what may differ in the expansion of the moved program |
| `MeaningSpec` | meanings of expressions (congruences); the output as it stands |
| `RunSpec` | an interpreter for a part of Rust (its header says which), an instance of a meaning |
| `SmallRust` | a small part of Rust: its trees and a parser, an instance of `ev_parse`. Paths have any number of segments, without generic arguments; methods may have generic arguments. Patterns, types and closure parameters are kept as tokens, as the walker does; the body of a closure has no operator at its top |
| `SimpleSpec` | methods that can be called on every expression; functions whose attributes set only such methods |
| `ReportSpec` | a reader of closures that bind names and call one reporting macro; the reports of the presets |
| `ModuleSpec` | the functions of a module, impl block or trait; items of the small part of Rust |
| `PlaceSpec` | first token of an expression and its position |
| `KindSpec` | flavors that differ in `hook_targets` only |
| `PresetSpec` | the table of presets; absolute paths in tokens |
| `ProgressSpec` | the reasons for which an expansion may fail |
| `GrammarSpec` | a small part of Rust's grammar: `.name(closure)` with a body of `let`s, calls and macro calls |
| `EvalSpec` | how macro arguments split |
| `FlavorSpec` | flavor tables, inheritance, names |
| `ScriptSpec` | what the scripts keep up: entries of TOML files, the texts of READMEs, what is checked out when a book is built |
| `SmallToml` | instances for examples: a reader for simple TOML files, templates without blocks |
| `ExcerptSpec`, `ExcerptArgsSpec` | lines, truncation, layout by line and column, options |

The main lemma of the walker (`SiteProofs.refine_all`) relates the positions of input and output one by one, by mutual induction on the
syntax tree; C01-C11, C13, C39-C41, C43 are read off it. `AccountProofs` shows that there is no hook at any other place.

## 5. Properties

A theorem ending in `_partial` has a hypothesis the property does not have; `_refuted` gives a program on which the property fails.

* **C01 `?` hook rule** (proved) — `Walker` against `SiteSpec`/`SettingSpec`; refinement, then a theorem about every `?` position, the settings of its hook, and the text of the hook.
* **C02 `return` hook rule** (partial) — same refinement; the rule is stated on the frames and on the callee of the value. Gap: proved for every value without the feature consume-question, and with it for every value that is no `e?` or `(e?)(..)`; refuted for `return a()?` when a method ending in `!` replaced the `?` by a call.
* **C03 tail expression hook rule** (partial) — same refinement; tail positions are part of `SiteSpec`. Gap: as for C02.
* **C04 only hooks and hooq attributes change** (proved) — `bare` of input and output are equal; mutual induction on the syntax tree.
* **C05 scope of #[hooq::skip]** (partial) — closed form `skipped` on frames, proved equal to the skip status that is threaded. Gap: the scope of skip is proved; that scopes under it are decided as if it were absent is proved unless skip_all encloses it, and refuted there.
* **C06 scope of #[hooq::skip_all]** (partial) — as C05. Gap: proved unless a skip lies between; refuted there.
* **C07 innermost setting wins** (proved) — invariant between the threaded context and the frames.
* **C08 bindings merge** (proved) — same invariant, for every name.
* **C09 $so_far** (proved) — stack semantics of `$so_far`, for every template.
* **C10 $count numbering** (proved) — `tally` over the positions before a hook, values as they stand in the output (`seen_sites`); order by induction. Counting values as written instead is refuted where a method ending in `!` removes the `?` in them.
* **C11 $count is per function** (partial) — corollary of C10 for items with one function; refuted otherwise. Gap: the counter is shared by the whole annotated item.
* **C12 ordinal suffix** (proved) — decimal digits and English suffixes, by arithmetic.
* **C13 $source and $expr** (proved) — the hook annotation at every position against the printed source.
* **C14 template substitution is single pass and exact** (partial) — independent substitution relation on token trees, equivalent to the renderer. Gap: proved for templates in which every `$` has a name; refuted for a `$` at the end of a stream, which is dropped; C14_filled says what happens to every template.
* **C15 stray `$` is rejected** (partial) — characterisation of templates that are rejected. Gap: a `$` followed by a non-identifier is rejected; the full claim is refuted: a `$` that ends a stream is dropped.
* **C16 unknown variables are rejected** (proved) — characterisation of success of a rendering.
* **C17 foreign attributes survive** (proved) — equality with a filter by an independent predicate on paths.
* **C18 no hooq attribute survives expansion** (partial) — `NodeSpec`: for every place with attributes, what is left there. Gap: exactly which hooq attributes stay is proved; refuted for every place that is not handled (path or literal that is no tail, let without initialiser, match arm, item without code, macro_rules, left side of an assignment).
* **C19 hook_targets lists** (proved) — set semantics of the list, also through the attribute.
* **C20 tail_expr_idents and ignore lists** (proved) — fold over the meanings of the attributes of a node.
* **C21 bad hooq attributes are errors** (partial) — every attribute is given a meaning or an error. Gap: every accepted hooq attribute is documented or one of the listed odd forms; the full statement is refuted by `#[hooq::skip = v]` and `#[::hooq::method = v]`, which silently become bindings.
* **C22 opaque macros are untouched** (proved) — walker theorem for macro nodes, and the parse loop.
* **C23 macro arguments are conserved** (partial) — the loop conserves tokens, given parsers that print back what they read (`printing`). Gap: proved without inner attributes at the start of the arguments; refuted there: they are dropped.
* **C24 flavor inheritance** (partial) — `FlavorSpec` inheritance against the nested update. Gap: proved for every setting but trait_uses; refuted for trait_uses (always overwritten) and for sub-flavors whose name is copied from a preset's sub-flavors.
* **C25 hooq.toml order independence** (proved) — invariance of the nested update under permutation of the tables.
* **C26 checked hooq.toml never panics** (proved) — a checked file builds in every order, so the `unwrap` is safe.
* **C27 the empty flavor** (proved) — flavor part by induction on tables, walker part from C01 with every target off.
* **C28 flavor names** (proved) — lemmas on splitting strings; look-up by name.
* **C29 root attribute** (proved) — fold over the arguments of the root attribute.
* **C30 hooq.toml cache** (proved) — state machine over loads, induction over histories.
* **C31 string truncation** (partial) — list lemmas. Gap: proved for max_len >= 2; below that a cut line is the two characters `..` (C31_small), so the claim for every max_len is refuted.
* **C32 pretty source keeps every token in place** (partial) — layout of positioned tokens, by induction. Gap: that every token appears once in order is proved for all inputs; the positions only when no token text contains a line break, refuted for multi-line literals.
* **C33 line excerpt** (proved) — relation for `str::lines`, list lemmas; every text.
* **C34 line number margin** (partial) — number of digits of the last line. Gap: proved when the end line of the span is known; refuted otherwise (margin width).
* **C35 one line output** (proved) — no line break in the result; every character other than white space (the list of the Unicode standard, written out in ExcerptSpec.v) is kept in order; the result is the trimmed lines, one space between each.
* **C36 options of the excerpt macros** (partial) — model of the option parser and of what each option does. Gap: parsing of options is proved in full; the effects are those of the code, the documented ones of @padding="top" and @max_len are refuted.
* **C37 HooqMeta bindings** (proved) — map of typed payloads.
* **C38 output does not depend on hash order** (proved) — sorting a permutation with distinct keys.
* **C39 $fn_name and $fn_sig** (proved) — closed form on frames.
* **C40 a hook applies to the whole target** (partial) — what operand a method call after some tokens applies to. Gap: proved for targets that are one operand; refuted for `return a + b`, which becomes `return a + b.log()`.
* **C41 consume-question** (partial) — the method parser and the `?` case of the walker. Gap: when a `?` goes is proved; that its attributes survive is refuted.
* **C42 no panic, no spurious error** (partial) — progress of the walker, with the reasons for failure; look-ups through the cache never panic; the same for the macro with its arguments; the text a preset inserts is derived in a small grammar of method calls (GrammarSpec.v), so presets succeed whenever the parser reads `TARGET.method(closure)`, and panic for a target `x as T`. Gap: the general statement is proved for every flavor look-up the macro can make (C42_lookup) and for the macro with its arguments (C42_macro); the claim about presets holds if the parser of parse_quote! reads TARGET.method(closure) for every target (C42_presets_partial), and fails for a target that is a cast, which syn does not let a method call follow (C42_presets_refuted).
* **C43 at most one hook per value** (partial) — the hook at a position; overlapping positions are refuted. Gap: a position carries at most one hook; overlapping positions are refuted.
* **C44 siblings do not interfere** (proved) — simulation of two runs that start with different counters: the outputs have the same outline (AlikeSpec.outline: every hook with its settings) and the same tokens up to the numbers in counts; token for token if no template mentions a count. Uses that parse_quote! does not look into string literals (`reads_alike`, a hypothesis on the parser).
* **C45 $file** (proved) — lemmas on strings.
* **C46 the place a hook reports** (partial) — from the hook record (C01_text says that the position variables are taken from it) and an induction showing that walking keeps the first token of an expression; refuted for tails that begin with a `?` replaced in replace mode. Gap: proved for every ? and return; for tails proved if the rendered target starts where the written one does, refuted otherwise.
* **C47 kinds do not interfere** (partial) — two runs on one program, both compared with the rules of C01-C03 and the numbering of C10. For `return` and tail the same restriction as there (keeps_form), refuted without. Gap: proved for ?, and for return and tail if the value is no ? or no method ends in ! (keeps_form); refuted otherwise: a ? that is consumed decides on the return around it.
* **C48 preset flavors and features** (proved) — the table of presets, by cases on the features.
* **C49 name of the hooq crate** (partial) — case analysis of the look-up; all absolute paths of the preset methods; refuted for `$hooq_meta`. Gap: proved for the methods of the presets as written; refuted for what $hooq_meta and $bindings expand to, hence for the preset hook.
* **C50 moving or reformatting a program** (proved) — simulation of two runs, on a program and on the moved program (MoveSpec.item_map): reading attributes, contexts, rendering and walking all commute with the move. The flavors have no positions: by induction over the tables of hooq.toml, for every look-up. Uses that syn does not look at positions (`reads_moved`, `reads_settings_moved`, `reads_paths_moved`, `reads_toml_still`, hypotheses on the parsers).
* **C51 observing hooks do not change behaviour** (proved) — meanings are congruences (MeaningSpec): equivalences of expressions kept by every construct. Undoing the hooks gives the source (C04); by induction on the output each part with its hooks undone means what the part means. Instance: an interpreter for a part of Rust (RunSpec: also loops, `match`, assignments, `&mut`, closures given to `map`, `and_then`, `map_err`, `or_else`, `unwrap_or_else` and `ok_or_else`; everything it calls is a library that may depend on all earlier calls), for which running alike, exactly or up to the contexts of errors, is shown to be a congruence and `.inspect_err(f)` to change nothing but the log, `.with_context(f)` nothing but contexts. The bound on the rounds of loops is shown not to matter (C51_rounds, C51_ends). For the presets: every hook node of the output belongs to a position (C01_all_hook_nodes), its text is the target and one method call with a closure (C51_preset_hooks), so what is left to assume is how the parser reads such a call.
* **C52 every preset expands every function of a small part of Rust** (proved) — no hypothesis on the parser is left: `rust_parse` (SmallRust) is shown to accept exactly the printed trees of the fragment (round trip and soundness by mutual induction), the walker is followed by mutual induction on the fragment, and C51_run and C51_run_context give the run. C52_operator_tail_refuted: without the condition on the last expression the method is called on an operand. C52_laws: the same parser satisfies the laws that C44, C46, C50 and C42_presets_refuted assume of `parse_quote!`.
* **C53 the sync script keeps versions and READMEs in step** (proved) — the script as a program over files, a record of events and oracles for TOML, handlebars, cargo, git and crates.io (Io, Sync). What it keeps up is a relation on file contents (ScriptSpec.in_step) that does not mention the script. The check is inverted step by step into that relation; a writing run is followed through its writes; the events are those of every run, whatever its outcome. `C53_ex_repository` runs the check on the texts of the repository.
* **C54 the books script builds every version from its own sources** (partial) — events of every run, whatever its outcome, by an invariant over the trace: the version checked out last, and book.toml as the checkout left it; nothing outside docs, and only `books` removed, first. Refuted for the address. Gap: proved but for the address: the edited book.toml is never written back, so the address is that of the checked out file (refuted with the file of the repository).
* **C55 masking the project root is undone by unmasking** (partial) — `str::replace` as a relation; where the new text has no border, a copied character cannot begin a new occurrence (induction over the replacement). Whatever the outcome: induction over the files. Gap: unmask then mask is proved for roots of which no proper beginning is also the end, refuted in general; that twice is once is proved for roots that begin with a slash and have no angle brackets, refuted in general.
* **C56 a new example gets the dependencies it needs and nothing else changes** (proved) — inversion of a successful run; entries of the edited manifest against the entries of the manifest before. Whatever the outcome: the events are a beginning of one list of four.
* **C57 a flavor named on the item is the flavor named at the root** (proved) — contexts are compared (`ShiftProofs.more`): equal settings, but one may override more methods. One-directional simulation of two runs by mutual induction on the syntax; rendering with a longer chain of methods gives what the shorter one gives, if that succeeds.
* **C58 a setting on a module, impl block or trait is a setting on each member** (proved) — the context after two nodes, one around the other, and the context after one node with the attributes of both are compared field by field; then the simulation of C57 in both directions, member by member.
* **C59 the order of hooq attributes that set different things does not matter** (proved) — of each kind of event at most one occurs, so a permutation leaves the last one of each kind and the context agrees field by field (OrderProofs); then C60.
* **C60 only what the attributes of a node amount to matters** (proved) — the context after the attributes of a node is a function of the settings in force after them (OrderProofs.same_more); then the simulation of C57 for two programs, by mutual induction on how they differ (`RewriteSpec.rw_item`). C60_overridden and C60_parts show that deleting and splitting leave the settings.
* **C61 functions of a small part of Rust are expanded whatever their hooq attributes set** (proved) — the invariant on contexts is that the methods in force and below are of the kind and their variables are among those of the root and of the attributes read on the way down, all of which have values; attributes keep it (SimpleProofs.ok_handle), and under it rendering gives the tokens of a tree of the class of the target, which the parser of SmallRust reads (SimpleProofs.simple_renders, stacked_renders, observing_renders). Where `$expr` stands at the top its tokens get other spans; that they are still those of a tree is SmallRustLaws.all_copy. The walker is followed by induction on the trees without attributes (SimpleWalkProofs.all_walk); that attributes are fine where they are read comes from the list of nodes of NodeSpec (SimpleWalkProofs.all_see). The runs are by C51.
* **C62 what the code inserted by a preset reports** (proved) — rendering the method of each preset by computation with the context, the source and the position left open (ReportProofs.preset_reports); reading the closure back statement by statement; the level, whose tokens are not known, by induction on paths. Lifted to positions by the theorem on what a hook is made of (HookProofs.hook_made). C62_captured_refuted: the level `line`, a name that the closure binds, by computation.
* **C63 modules, impl blocks and traits are expanded whole, and each of their functions does what it did** (proved) — items are followed by an induction in which only modules recurse (ModuleProofs.item_walks), with the walker on bodies and constants of C61. Alike items have alike functions (ModuleProofs.alike_functions), so the congruence theorem C51 gives each function its run.
* **C64 a function that is expanded more than once** (partial) — induction on the sequence of expansions with C51; a second expansion is taken to read what the first one printed as it is (for the part of Rust of C61 that is proved there). C64_shown_refuted computes two expansions under the preset `default` with a reader of closures and macro calls: the `?` in the argument of the macro that shows the source is hooked as well. Gap: that reports show the source is false after a second expansion (C64_shown_refuted); that the printed item is read back as it is is part of the statement (proved for the part of Rust of C61), and so is that the expansions succeed.

## 6. Evidence for the model

* **Computed cases.** Every property has Examples with programs that meet the hypotheses of its theorems. `Properties_Catalogue` runs every construct
  of the syntax tree with a `?` in each part, and every construct with a block, against answers written by hand.
  `Properties_Print` prints every construct, with outer and inner attributes, and compares the text with Rust source.
  `Properties_Cases` does the same for the parts: the attribute reader, the method parser, the meta variables, `hooq.toml`, the root arguments, macro arguments, excerpts.
* **Recorded expansions.** The repository contains the output of the real macro: `X.expanded.rs` beside `X.rs` in the tests and in the programs of the
  book, and snapshots of the excerpt macros. The `Recorded_*` files compare the model with all of them: 207 annotated items (every construct of
  `tests/walker`, the settings, skips, `hooq.toml`, presets, meta variables, `consume-question`, the book) and 20 snapshots. Every token agrees,
  with the line and column numbers in them. The comparison found one error of the transcription, which is corrected: the line break in the texts
  of the presets.
  `conformance/gen.py` generates the files; it parses the sources with the parser in `conformance/rust.py`. Neither is trusted for the
  theorems. The recordings were made after rustc had expanded the standard macros, so `Conformance.std_toks` expands `println!`,
  `eprintln!`, `format!`, `vec!`, `stringify!`, `log!`, `anyhow!`, `eyre!`, `derive(Debug)` of a unit struct and the macros of the test helper crate in the output
  of the model, and the excerpt macros through `ExcerptArgs`. What rustc's formatter changes is left out on both sides: commas before
  closing delimiters and between match arms, braces around closure bodies and arms without statements. The spacing in printed tokens
  (`ev_str`) is taken from the recording. Not compared are nine items: six with `#[instrument]` of `tracing`, one with `macro_rules` of its own and
  `serde_json`, one that prints `line!()`, one without recording.
* **The repository as an input of its scripts.** `Recorded_Readme` has the manifests, templates and READMEs of the repository; the modelled check accepts them (C53_ex_repository).
* **Mutations.** `seeded/LOG.jsonl` lists wrong versions of the model and what noticed them. One wrong definition breaks a few proof
  scripts, and everything that depends on those; that alone does not show that a claim has become false. The log therefore tells apart
  `theorems_failed` (proofs broken by themselves), `false_by_value` (computed cases that now compute to something else, so a statement
  is false and not only its proof) and `lost_as_dependents`. Cases that were added because of a mutant are under `cases_added`.

## 7. What the proofs found

Behaviour of the code that differs from its documentation or from what one would expect; theorems in brackets.

* `#[hooq::flavor = g]` is documented to override all fields; bindings of the flavor at the root that `g` does not define stay visible (C57_bindings_refuted).
* `$so_far` is the method of the surrounding node: of two methods on one node the first is lost, also if the second says `.$so_far` (C60_ex_so_far, C60_overridden).
* `$source` shows the hooq attributes inside the operand (C60_source_refuted).
* A `#[hooq::skip]` inside `#[hooq::skip_all]` replaces it: scopes below are hooked again (C05_beyond_refuted, C06_skip_all_refuted).
* hooq attributes stay in the output, and do nothing, on paths and literals that are no tail, `continue`, `_`, match arms, `let` without
  initialiser, the left side of an assignment, items without code, `macro_rules` (C18_refuted). A `?` left of `=` is never hooked.
* `$count` runs through the whole annotated item, not per function (C11_refuted), and counts positions whose kind is switched off (C10_ex_gap).
* A `$` at the end of a token stream is dropped silently (C14_trailing_refuted, C15_trailing_refuted).
* `.method` is appended to the tokens of the target: `return a + b` becomes `return a + b.log()` (C40_whole_refuted).
* The same at the tail of a function: `a + b` becomes `a + b.inspect_err(..)` and `*a` becomes `*a.inspect_err(..)`, the method is called on an operand and not on the value (C52_operator_tail_refuted).
* `return v` as the tail of a function is hooked twice, so is a tail `a()?` whose `?` is consumed (C43_return_tail_refuted, C43_consumed_tail_refuted).
* A `?` that is consumed takes its other attributes along (C41_attributes_refuted). Whether the value of a `return` or tail is a call to a
  listed name is then decided on the rendered expression (C02_return_refuted, C03_tail_refuted).
* Inner attributes at the start of macro arguments are lost (C23_refuted).
* `hooq.toml` always overwrites `trait_uses`; new sub-flavors copy the sub-flavors of their parent (C24_traits_refuted, C24_copied_refuted).
* `#[hooq::skip = v]` and `#[::hooq::method = v]` silently define bindings (C21_refuted, C21_leading_refuted). A binding with the name of a
  built-in variable can never be read (C16_no_shadowing).
* Truncation to fewer than 2 characters gives 2 (C31_small_refuted); `@max_len` is rejected, `@padding = "top"` also pads below
  (C36_max_len_refuted, C36_padding_top_refuted); a literal with line breaks moves later tokens down (C32_multi_line_refuted); the margin is
  too narrow when the end line is unknown (C34_margin_refuted).
* `syn` gives the attributes of a statement to the leftmost operand of an assignment, so `#[hooq::skip] x = f()?;` puts the attribute on the left side, which is never
  walked: it stays in the output and the `?` is hooked (C18_nodes lists the place).
* A function with `#[hooq]` inside an item with `#[hooq]` is expanded twice: every target gets two hooks, and as the argument of `excerpted_pretty_stringify!` is hooked as well,
  no report shows the source any more, but the source with inserted code (C64_shown_refuted).
* If a `?` at the left edge of a tail is replaced by a method in replace mode, the hook of the tail reports the position of the `?` and not of the tail (C46_tail_refuted).
* `::hooq::HooqMeta` and `::hooq::BindingPayload` are written out, so `$hooq_meta`, `$bindings` and the flavor `hook` do not work if the crate is a dependency under another
  name, while the other presets do (C49_refuted).
* The presets do not work on every program: the method call is put after a target that is a cast, `syn` rejects `x as T.inspect_err(..)`, and
  `parse_quote!` panics (C42_presets_refuted; that `syn` rejects it is a hypothesis there).
* `docs/generate_mdbooks.rs` edits the `site-url` of each book in memory and never writes it: every version is built with the address in its own `book.toml`, which is that of
  `latest` (C54_site_url_refuted).
* `sync.rs` is not atomic: a run that fails may have rewritten the manifest and some of the READMEs (C53_failed_unchanged_refuted).
* Unmasking and masking again does not give back every recorded text (C55_unmask_mask_refuted); it does for roots without a border. Unmasking twice differs from unmasking once for a root that has the placeholder in it (C55_twice_refuted); a test that fails leaves the recorded files unmasked, so that the next run does unmask twice.
* Read off, without a theorem: the test that `new_project.rs` writes for the mode `expand` masks `./*.expanded.rs`, while the file it records is `./src/main.expanded.rs`.
