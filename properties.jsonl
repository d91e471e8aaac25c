{"id": "C01", "title": "`?` hook rule", "statement": "In the output of #[hooq], the operand of a `?` that the walker reaches carries exactly one hook of kind `?` if `?` is in the hook_targets in effect at that position and the position is not skipped; otherwise it carries none. The hook uses the method, bindings and function information in effect at that position.", "quantifier": "every annotated item, every position in it (any nesting of blocks, closures, macros, nested items, match arms), every set of hooq attributes, every flavor", "why_tests_cant": "programs nest without bound; a test fixes one nesting and one set of attributes, and the rule has to hold for all of them", "anchors": ["hooq-macros/src/impls/walker/mod.rs: walk_expr (Expr::Try)", "hooq-macros/src/impls/walker/hook_expr.rs: hook_expr"]}
{"id": "C02", "title": "`return` hook rule", "statement": "The value of a `return v` that the walker reaches is hooked iff the position is not skipped, `return` is in hook_targets, and either v is a call whose last path segment is in tail_expr_idents, or the nearest enclosing function/closure has a return type whose last segment is in result_types and v is not a call whose last segment is in ignore_tail_expr_idents. A bare `return` is never hooked.", "quantifier": "every item, position, returned expression, attribute set and flavor", "why_tests_cant": "the rule combines four inherited settings with the syntactic form of the value and the nearest signature; the product space is unbounded", "anchors": ["hooq-macros/src/impls/walker/mod.rs: walk_expr (Expr::Return)", "hooq-macros/src/impls/walker/mod.rs: target_call_check_bools", "hooq-macros/src/impls/inert_attr/context.rs: return_type_is_result"]}
{"id": "C03", "title": "tail expression hook rule", "statement": "The tail expression of a function or block-bodied closure, the body of a block-less closure, the tail of any other block and the body of a match arm are hooked iff not skipped, tail_expr is in hook_targets, and either it is a call to an ident in tail_expr_idents, or it is the tail of a function/closure body whose return type is in result_types and it is not a call to an ident in ignore_tail_expr_idents. Statements with a semicolon and non-final statements are never hooked as tails.", "quantifier": "every item, every block in it, every attribute set and flavor", "why_tests_cant": "needs all shapes of blocks, closures and arms at every depth", "anchors": ["hooq-macros/src/impls/walker/mod.rs: handle_tail_expr", "hooq-macros/src/impls/walker/mod.rs: walk_stmt", "hooq-macros/src/impls/walker/mod.rs: walk_expr"]}
{"id": "C04", "title": "only hooks and hooq attributes change", "statement": "If expansion succeeds, undoing the inserted hooks in the output gives back the input item with nothing changed except that `hooq::...` attributes were removed at the positions the walker visits: no expression, statement, item, pattern, label, literal or foreign attribute is lost, duplicated or reordered.", "quantifier": "every item, context, flavor, template and reparse result", "why_tests_cant": "a conservation law over all programs; snapshot tests check a finite list of constructs", "anchors": ["hooq-macros/src/impls/walker/mod.rs: walk_item, walk_expr, walk_stmt, handle_tail_expr", "hooq-macros/src/impls/walker/walk_macro.rs: walk_macro"]}
{"id": "C05", "title": "scope of #[hooq::skip]", "statement": "A position governed by #[hooq::skip] (the annotated node itself and everything under it up to, not including, the next block/closure-block/arm/function scope) gets no hook of any kind; inside such a nested scope hooks are decided as if the skip were absent.", "quantifier": "every placement of skip and every nesting of scopes", "why_tests_cant": "the boundary is a property of every path through the syntax tree", "anchors": ["hooq-macros/src/impls/inert_attr/context.rs: for_sub_scope_context, is_skipped", "hooq-macros/src/impls/inert_attr/mod.rs: handle_inert_attrs"]}
{"id": "C06", "title": "scope of #[hooq::skip_all]", "statement": "Nothing inside a node annotated #[hooq::skip_all] is hooked, at any depth.", "quantifier": "every item with a skip_all somewhere, every position below it", "why_tests_cant": "quantifies over all positions below the attribute, including ones with further attributes", "anchors": ["hooq-macros/src/impls/inert_attr/mod.rs: get_skip_status", "hooq-macros/src/impls/inert_attr/context.rs: updated_by_inert_attr, for_sub_scope_context"]}
{"id": "C07", "title": "innermost setting wins", "statement": "At every position the method, hook_targets, tail_expr_idents, ignore_tail_expr_idents, result_types and hook_in_macros in effect are those of the innermost enclosing node whose attributes set that field, independently per field, else those of the root flavor; attributes of siblings, of descendants and of other branches have no influence.", "quantifier": "every position in every item, every attribute set", "why_tests_cant": "inheritance along arbitrary paths and non-interference between branches", "anchors": ["hooq-macros/src/impls/inert_attr/context.rs: updated_by_inert_attr, LocalContextField::from_parent"]}
{"id": "C08", "title": "bindings merge", "statement": "The value of $x at a position is the one of the innermost enclosing node that binds x (attribute binding, binding(..)/var(..), or bindings/flavor assignment); if no enclosing node binds x it is the root flavor's; binding one name never removes or changes another name.", "quantifier": "every position, every chain of binding attributes, every name", "why_tests_cant": "maps merged along unbounded chains", "anchors": ["hooq-macros/src/impls/inert_attr/context.rs: merged_from_parent, get_binding", "hooq-macros/src/impls/inert_attr/parse.rs: extract_hooq_info_from_attrs"]}
{"id": "C09", "title": "$so_far", "statement": "$so_far in a method expands to the expansion of the method that the method's own override replaced, and $so_far inside that one to the one before it, and so on; it never refers to itself, expansion terminates, and $so_far with nothing overridden is a compile error.", "quantifier": "every chain of overrides of any length, every template", "why_tests_cant": "termination and the meaning of a chain of overrides of any length", "anchors": ["hooq-macros/src/impls/method/render/mod.rs: meta_vars2token_stream (SoFar)", "hooq-macros/src/impls/inert_attr/context.rs: get_overridden_ancestor_of_method"]}
{"id": "C10", "title": "$count numbering", "statement": "For each kind, the hooks of that kind in the output, taken in evaluation order (operands before the `?` applied to them, left to right), are numbered with strictly increasing counts, each being one more than the number of unskipped sites of that kind before it; without skips and with the target enabled they are 1,2,3,...", "quantifier": "every item, all sites in it", "why_tests_cant": "a global numbering over an unbounded tree", "anchors": ["hooq-macros/src/impls/walker/hook_expr.rs: hook_expr", "hooq-macros/src/impls/inert_attr/context.rs: Counter"]}
{"id": "C11", "title": "$count is per function", "statement": "(documented in meta_vars.md) $count is the number of the target within its function: the first `?` of every function is numbered 1st.", "quantifier": "every item with several functions", "why_tests_cant": "depends on all functions of the annotated item", "anchors": ["docs/en/hooq-mdbook-en/src/reference/meta_vars.md: count / nth", "hooq-macros/src/impls/inert_attr/context.rs: HookContext::new, Counter"]}
{"id": "C12", "title": "ordinal suffix", "statement": "$count renders the number n of a site followed by the correct English ordinal suffix (st, nd, rd, th; 11, 12, 13 and all numbers ending in them take th), a space and the kind.", "quantifier": "every count n", "why_tests_cant": "all naturals", "anchors": ["hooq-macros/src/impls/method/render/mod.rs: get_count"]}
{"id": "C13", "title": "$source and $expr", "statement": "$source is the token stream of the target as written (without hooq attributes of its own, without any hook inserted in nested targets) while $expr is the target after nested targets were hooked.", "quantifier": "every target expression, every nesting of targets inside it", "why_tests_cant": "nesting depth and nested attributes unbounded", "anchors": ["hooq-macros/src/impls/walker/mod.rs: handle_tail_expr, walk_expr (Try, Return)", "hooq-macros/src/impls/method/render/mod.rs: meta_vars2token_stream"]}
{"id": "C14", "title": "template substitution is single pass and exact", "statement": "Rendering a template replaces each $name by its value and leaves every other token of the template unchanged and in place, at every group depth; substituted text is never scanned again.", "quantifier": "every template token stream, every binding value", "why_tests_cant": "token trees of any depth; values that themselves contain `$`", "anchors": ["hooq-macros/src/impls/method/render/mod.rs: expand_meta_vars"]}
{"id": "C15", "title": "stray `$` is rejected", "statement": "A `$` in a template that is not followed by an identifier is a compile error.", "quantifier": "every template", "why_tests_cant": "every position of `$` in every token tree", "anchors": ["hooq-macros/src/impls/method/render/mod.rs: expand_meta_vars"]}
{"id": "C16", "title": "unknown variables are rejected", "statement": "$name expands successfully iff name is a built-in meta variable (or alias) or a binding in effect; otherwise rendering fails, and the error lists exactly the bindings in effect (sorted) and the built-ins. A binding never shadows a built-in.", "quantifier": "every name, every set of bindings", "why_tests_cant": "all names and all binding sets", "anchors": ["hooq-macros/src/impls/method/render/mod.rs: meta_vars2token_stream", "hooq-macros/src/impls/method/render/meta_vars.rs: MetaVars::from_str"]}
{"id": "C17", "title": "foreign attributes survive", "statement": "Processing the attributes of a node removes exactly those whose path is hooq::<one segment> and keeps all the others, in order.", "quantifier": "every attribute list", "why_tests_cant": "all attribute lists and interleavings", "anchors": ["hooq-macros/src/impls/inert_attr/parse.rs: extract_hooq_info_from_attrs, get_binding_name"]}
{"id": "C18", "title": "no hooq attribute survives expansion", "statement": "After successful expansion no hooq::<...> attribute remains anywhere in the output (rustc would reject it).", "quantifier": "every item, every attribute position", "why_tests_cant": "every syntactic position that can carry an attribute", "anchors": ["hooq-macros/src/impls/walker/mod.rs: walk_expr, walk_stmt, walk_item"]}
{"id": "C19", "title": "hook_targets lists", "statement": "A list of target names switches on exactly the targets it names (with aliases and `all`), independent of order and repetition; any unknown name makes it an error naming the first unknown name.", "quantifier": "every list of strings", "why_tests_cant": "all lists", "anchors": ["hooq-macros/src/impls/inert_attr/context.rs: HookTargetSwitch::try_from"]}
{"id": "C20", "title": "tail_expr_idents and ignore lists", "statement": "After the attributes of a node, tail_expr_idents is the non-`!` part of the last list given; ignore_tail_expr_idents is every `!`-prefixed ident and every ident given by ignore_tail_expr_idents(..) since the last assignment from a flavor, in order; when nothing contributed, the inherited list stays.", "quantifier": "every sequence of attributes on one node", "why_tests_cant": "sequences of attributes of any length and order", "anchors": ["hooq-macros/src/impls/inert_attr/parse.rs: extract_hooq_info_from_attrs, Strings::split_include_or_not_include"]}
{"id": "C21", "title": "bad hooq attributes are errors", "statement": "Every hooq::<...> attribute either has its documented effect or makes expansion fail; none is silently ignored.", "quantifier": "every attribute", "why_tests_cant": "all attribute shapes (path, list, name-value) and all paths", "anchors": ["hooq-macros/src/impls/inert_attr/parse.rs: extract_hooq_info_from_attrs"]}
{"id": "C22", "title": "opaque macros are untouched", "statement": "The tokens of a macro call are unchanged if hook_in_macros is false at that position or if the tokens are not a `,`/`;` separated list of items/expressions/statements.", "quantifier": "every macro call, every token stream", "why_tests_cant": "all token streams", "anchors": ["hooq-macros/src/impls/walker/walk_macro.rs: handle_token_stream, walk_macro"]}
{"id": "C23", "title": "macro arguments are conserved", "statement": "When a macro body is entered, all its tokens reappear in order in the output apart from inserted hooks and removed hooq attributes.", "quantifier": "every macro body that parses", "why_tests_cant": "all token streams accepted by the list parser", "anchors": ["hooq-macros/src/impls/walker/walk_macro.rs: EvaluableList::parse, handle_token_stream"]}
{"id": "C24", "title": "flavor inheritance", "statement": "A setting not given in a hooq.toml table has, in the resulting flavor, the value it had before if the flavor exists already (a preset), else the value in the parent flavor (built-in defaults at the top level); bindings are merged over it.", "quantifier": "every toml document, every flavor path", "why_tests_cant": "tables nest without bound", "anchors": ["hooq-macros/src/impls/flavor/toml_load/apply.rs: update_flavor_inner"]}
{"id": "C25", "title": "hooq.toml order independence", "statement": "Whether hooq.toml is accepted, and every flavor that results, does not depend on the iteration order of the hash maps holding the tables.", "quantifier": "every document, every iteration order at every level", "why_tests_cant": "hash iteration order is random per process; tests see one order per run", "anchors": ["hooq-macros/src/impls/flavor/toml_load/apply.rs: update_flavors, update_flavor_inner", "hooq-macros/src/impls/flavor/toml_load/mod.rs: HooqToml"]}
{"id": "C26", "title": "checked hooq.toml never panics", "statement": "If a hooq.toml passes the check made when it is loaded, building the flavor store from it later never panics, whatever iteration order is used the second time.", "quantifier": "every document, every pair of iteration orders", "why_tests_cant": "the unwrap is safe only if the check implies success for every order", "anchors": ["hooq-macros/src/impls/flavor/mod.rs: FlavorStore::with_hooq_toml, CheckedHooqToml::try_from"]}
{"id": "C27", "title": "the empty flavor", "statement": "The flavor `empty` cannot be redefined by hooq.toml, and expanding with it inserts no hook as long as no inner attribute re-enables one: the output is the input without hooq attributes.", "quantifier": "every document, every item", "why_tests_cant": "all documents and all items", "anchors": ["hooq-macros/src/impls/flavor/toml_load/apply.rs: update_flavor_inner", "hooq-macros/src/impls/flavor/presets/empty.rs: empty_flavor"]}
{"id": "C28", "title": "flavor names", "statement": "A flavor named by a Rust path and by the strings with `.` or `::` as separators denote the same flavor; a string denotes a flavor path iff all its components are non-empty; lookup succeeds iff every component exists in turn.", "quantifier": "every path and string, every flavor tree", "why_tests_cant": "all strings", "anchors": ["hooq-macros/src/impls/flavor/flavor_path.rs", "hooq-macros/src/impls/flavor/mod.rs: get_flavor_inner"]}
{"id": "C29", "title": "root attribute", "statement": "#[hooq(...)] selects the flavor named by its last flavor argument (`default` if none); every trait_use path, in order, then every trait of the flavor is imported before the item as `#[allow(unused)] use P as _;`, and the item follows.", "quantifier": "every argument list, every flavor", "why_tests_cant": "argument lists of any length and order", "anchors": ["hooq-macros/src/impls/root_attr/parse.rs", "hooq-macros/src/impls/root_attr/mod.rs: RootContext::load, trait_uses_token_stream", "hooq-macros/src/impls/mod.rs: hooq_impls"]}
{"id": "C30", "title": "hooq.toml cache", "statement": "In a compiler process that expands macros for several packages, each expansion sees only the hooq.toml of its own package; after the first successful read for a package every later expansion for it sees that same document; failed or missing reads are not remembered.", "quantifier": "every history of expansions, packages and file changes", "why_tests_cant": "histories of a long-lived process (rust-analyzer)", "anchors": ["hooq-macros/src/impls/flavor/mod.rs: TomlStore::load, set, get"]}
{"id": "C31", "title": "string truncation", "statement": "Truncating a string literal keeps the number of lines, leaves lines of at most max_len characters as they are, and turns a longer one into a prefix, `..` and a suffix of it that together have exactly max_len characters; truncation is idempotent.", "quantifier": "every string, every max_len", "why_tests_cant": "all strings and lengths, including the boundary values", "anchors": ["hooq-macros/src/impls/utils/source_excerpt.rs: TruncateStrFolder"]}
{"id": "C32", "title": "pretty source keeps every token in place", "statement": "The pretty printed source contains the text of every token exactly once, in order, with only blanks and line breaks between them, and puts each token on the line it has in the source relative to the first one, at its source column (first line: shifted to column 5).", "quantifier": "every token tree with positions in source order", "why_tests_cant": "all token trees and positions", "anchors": ["hooq-macros/src/impls/utils/source_excerpt.rs: into_pretty_str_inner, add_tt"]}
{"id": "C33", "title": "line excerpt", "statement": "An excerpt of n lines shows all lines if there are at most n; otherwise the first line, `...`, and the last n-1 lines (only the last line if n is 1).", "quantifier": "every text, every n >= 1", "why_tests_cant": "all texts and n", "anchors": ["hooq-macros/src/impls/utils/source_excerpt.rs: into_excerpted_line_pretty_str"]}
{"id": "C34", "title": "line number margin", "statement": "With line numbers shown, line i of the excerpt is prefixed with the source line number start+i right-aligned in a margin of the same width for all lines.", "quantifier": "every text and line range", "why_tests_cant": "all ranges, including digit-count changes", "anchors": ["hooq-macros/src/impls/utils/source_excerpt.rs: add_line_prefix"]}
{"id": "C35", "title": "one line output", "statement": "one_line_stringify produces a single line, keeps every visible character in order, and puts the trimmed lines side by side.", "quantifier": "every token tree", "why_tests_cant": "all token texts", "anchors": ["hooq-macros/src/impls/utils/source_excerpt.rs: into_one_line_pretty_str"]}
{"id": "C36", "title": "options of the excerpt macros", "statement": "Options may be given in any order with optional separators; the last occurrence of an option wins; an unknown option or wrong value is an error; documented options are accepted and have the documented effect.", "quantifier": "every option list", "why_tests_cant": "all option lists", "anchors": ["hooq-macros/src/impls/utils/source_excerpt_macros.rs", "hooq-macros/src/lib.rs"]}
{"id": "C37", "title": "HooqMeta bindings", "statement": "HooqMeta::get_binding::<T>(k) returns the value bound to k iff k is bound and the bound value has type T; a payload taken by $bindings exposes every binding in effect once, under its own name.", "quantifier": "every binding set, key and type", "why_tests_cant": "all keys and types", "anchors": ["hooq-helpers/src/lib.rs: HooqMeta::get_binding", "hooq-macros/src/impls/method/render/mod.rs: get_bindings_token_stream"]}
{"id": "C38", "title": "output does not depend on hash order", "statement": "The tokens generated for $bindings, $hooq_meta and error messages listing bindings are the same for every iteration order of the binding map.", "quantifier": "every binding map and iteration order", "why_tests_cant": "hash order is random", "anchors": ["hooq-macros/src/impls/inert_attr/context.rs: available_bindings"]}
{"id": "C39", "title": "$fn_name and $fn_sig", "statement": "$fn_name is the name of the nearest enclosing fn, or __closure_in_NAME__ in a closure, where NAME is the nearest enclosing fn however many closures lie between (`<unknown>` outside any fn).", "quantifier": "every nesting of fns and closures", "why_tests_cant": "nesting depth unbounded", "anchors": ["hooq-macros/src/impls/utils/function_info.rs: ClosureInfo::new", "hooq-macros/src/impls/method/render/mod.rs: get_fn_name"]}
{"id": "C40", "title": "a hook applies to the whole target", "statement": "In insertion mode the inserted method call has the complete target expression as its receiver.", "quantifier": "every target expression", "why_tests_cant": "all operator nestings and precedences", "anchors": ["hooq-macros/src/impls/method/render/mod.rs: render_expr_with_method"]}
{"id": "C41", "title": "consume-question", "statement": "A `?` disappears from the output iff the feature is enabled, the method in effect ends with `!`, and the `?` is hooked; all other attributes and tokens of the expression survive.", "quantifier": "every item, every method chain", "why_tests_cant": "all items and methods", "anchors": ["hooq-macros/src/impls/method/mod.rs: split_tail_exclamation, try_from", "hooq-macros/src/impls/walker/mod.rs: walk_expr (Expr::Try)"]}
{"id": "C42", "title": "no panic, no spurious error", "statement": "Expansion of an item succeeds whenever its hooq attributes are well formed, every template in effect at a hooked site only uses known variables, and every rendered expression parses. In particular expansion with any preset flavor and no hooq attributes always succeeds.", "quantifier": "every item and context", "why_tests_cant": "progress over all programs", "anchors": ["hooq-macros/src/impls/walker/mod.rs", "hooq-macros/src/impls/method/render/mod.rs: render_expr_with_method", "hooq-macros/src/impls/flavor/presets"]}
{"id": "C43", "title": "at most one hook per value", "statement": "No value is hooked twice by the same method (documented: a target is `?`, `return` or tail expression).", "quantifier": "every item", "why_tests_cant": "all combinations of overlapping targets", "anchors": ["hooq-macros/src/impls/walker/mod.rs: handle_tail_expr, walk_expr"]}
{"id": "C44", "title": "siblings do not interfere", "statement": "Expanding a module is expanding each of its functions under the same settings: apart from $count, what is generated inside one function does not depend on the other functions.", "quantifier": "every module and every pair of siblings", "why_tests_cant": "all contents of the siblings", "anchors": ["hooq-macros/src/impls/walker/mod.rs: walk_item (Item::Mod, Item::Impl)"]}
{"id": "C45", "title": "$file", "statement": "$file is the last `/`-separated component of $path, and the whole path if it has none.", "quantifier": "every path string", "why_tests_cant": "all strings", "anchors": ["hooq-macros/src/impls/method/render/mod.rs: get_file_name"]}
{"id": "C46", "title": "the place a hook reports", "statement": "$line, $column, $path and $file of a hook are the position of its target: of the `?`, of the `return` keyword, of the first token of the tail expression.", "quantifier": "every program, every setting and every hook", "why_tests_cant": "all programs; the tests replace positions by fixed text", "anchors": ["hooq-macros/src/impls/walker/mod.rs: walk_expr (Expr::Try, Expr::Return)", "hooq-macros/src/impls/walker/mod.rs: walk_stmts", "hooq-macros/src/impls/method/render/mod.rs"]}
{"id": "C47", "title": "kinds do not interfere", "statement": "Switching one kind of target on or off in hook_targets changes neither which positions of the other kinds are hooked nor the settings of their hooks.", "quantifier": "every program, every pair of flavors that differ in hook_targets only, every position", "why_tests_cant": "all programs and all combinations of switches", "anchors": ["hooq-macros/src/impls/inert_attr/context.rs: is_hook_target", "hooq-macros/src/impls/walker/mod.rs"]}
{"id": "C48", "title": "preset flavors and features", "statement": "The preset flavors are default, hook and empty, and behind their features anyhow, eyre and color_eyre, log and tracing with one sub-flavor per level; each has the documented imports, method, targets, idents and level binding, whatever the other features are.", "quantifier": "every combination of features and every flavor path", "why_tests_cant": "all combinations of features", "anchors": ["hooq-macros/src/impls/flavor/presets/mod.rs", "hooq-macros/src/impls/flavor/presets/log.rs", "hooq-macros/src/impls/flavor/presets/tracing.rs"]}
{"id": "C49", "title": "name of the hooq crate", "statement": "Generated paths to the hooq crate use the name under which the crate is a dependency of the user's crate, with dashes replaced.", "quantifier": "every answer of the look-up of the crate name", "why_tests_cant": "all crate names", "anchors": ["hooq-macros/src/impls/utils/get_hooq_crate_name.rs", "hooq-macros/src/impls/flavor/presets/hook.rs", "hooq-macros/src/impls/method/render/mod.rs: hooq_meta"]}
{"id": "C50", "title": "moving or reformatting a program", "statement": "Moving the tokens of a program to other positions (as rustfmt does, or a line added above) does not change whether the macro succeeds, which hooks are applied, with which numbers and settings, or any token of the expansion, except for the literals that hold a position and those that hold a printed form of tokens, which hold the new one.", "quantifier": "every program, all arguments, every change of positions", "why_tests_cant": "all programs and all layouts", "anchors": ["hooq-macros/src/impls/walker/mod.rs", "hooq-macros/src/impls/method/render/mod.rs", "hooq-macros/src/impls/inert_attr/parse.rs", "hooq-macros/src/impls/root_attr/parse.rs"]}
{"id": "C51", "title": "observing hooks do not change behaviour", "statement": "If the text put in place of each target means what the target means (for example `.inspect_err(log)`, which shows an error to a function and returns its receiver), the expanded item means what the item meant: for every notion of meaning that the constructs of Rust respect. In particular an expanded function returns the same result, makes the same calls in the same order and is left at the same `?` and `return`; only what the observer has seen is new. It ends when the function ended and goes on when it went on. With hooks that put a context around errors (`with_context`, `wrap_err_with`) the same holds up to contexts, for libraries that do not look at them. Under a preset and without hooq attributes every hook is the target followed by one method call with a closure, so this holds as soon as such a call means what its receiver means.", "quantifier": "every program, every flavor and setting, every semantics for which macros that were entered see the meaning of their arguments only", "why_tests_cant": "all programs and all executions", "anchors": ["hooq-macros/src/impls/walker/mod.rs", "hooq-macros/src/impls/walker/hook_expr.rs", "hooq-macros/src/impls/method/render/mod.rs"]}
{"id": "C52", "title": "every preset expands every function of a small part of Rust", "statement": "Take the part of Rust with names, paths without generic arguments, literals, calls, method calls (with generic arguments too), fields, also numbered ones, indexing, `.await`, `?`, prefix and binary operators, ranges with both ends, assignments, `return`, `break` (with a value too), `continue`, blocks, `unsafe`, `let` with any pattern and type, with and without value and with `else`, `if`/`else`, `if let`, `match` with guards, loops, tuples, arrays, parentheses and closures whose body is an expression without operators, and a parser for it in place of syn's. Every function with such a body, whose last expression is no operator expression, and without hooq attributes is expanded by every preset: nothing panics and no error is reported. What is printed reads back, and under the presets that use `inspect_err` the expanded function runs as the function did: the same result, the same calls, the same ways out. Under `anyhow`, `eyre` and `color_eyre` it does so up to the contexts of errors.", "quantifier": "every function of that part of Rust, every preset and set of cargo features, every library and start state", "why_tests_cant": "all programs and all executions", "anchors": ["hooq-macros/src/impls/walker/mod.rs", "hooq-macros/src/impls/method/render/mod.rs", "hooq-macros/src/impls/flavor/presets"]}
{"id": "C53", "title": "the sync script keeps versions and READMEs in step", "statement": "`.github/scripts/sync.rs --check` succeeds exactly when the version of the workspace is the one hooq asks of its two companion crates, `cargo sort --check` is content, and each of the eight READMEs is its template filled in with the version to show (the newest published one while work is in progress, that of the workspace otherwise); it changes no file. A run without `--check` that succeeds leaves everything in step, so the check succeeds after it. Whatever its outcome it writes only the READMEs and hooq/Cargo.toml, changes there only the two version entries, and tags only files that are in step. The published version is the most recent one that was not withdrawn, the last listed of several.", "quantifier": "every content of the files, every answer of crates.io, every mode, every outcome of the commands", "why_tests_cant": "all file contents and answers; the script has no tests", "anchors": [".github/scripts/sync.rs"]}
{"id": "C54", "title": "the books script builds every version from its own sources", "statement": "A run of docs/generate_mdbooks.rs that succeeds has built every listed version in both languages while that version was checked out, into the directory of its name, and the latest one also into `latest`. Whatever the outcome, mdbook is run for nothing else and no file but the index is written by the script. Outside a directory called docs the script does nothing; in one it first removes `books`, and nothing later. Each book is built with the address (site-url) it will have.", "quantifier": "every list of versions, every content of the files, every outcome of the commands", "why_tests_cant": "all lists and outcomes; the script has no tests", "anchors": ["docs/generate_mdbooks.rs"]}
{"id": "C55", "title": "masking the project root is undone by unmasking", "statement": "Replacing the root of the project by `<hooq_root>` in recorded expansions and back gives the recorded text back, in both orders; a masked text no longer contains the root; doing either twice is doing it once; files that do not match the pattern are not touched, and whatever the outcome each other file is as it was or replaced as a whole.", "quantifier": "every root, every text, every set of files", "why_tests_cant": "all texts and all roots: the tests see the one root of the machine they run on", "anchors": ["test-helpers/src/lib.rs"]}
{"id": "C56", "title": "a new example gets the dependencies it needs and nothing else changes", "statement": "After a run of mdbook-source-code/new_project.rs that succeeds, the manifest has the path dependency on hooq and the one development dependency of the mode, every other entry that cargo wrote is unchanged, and the test is the only other file written. Whatever the outcome, `cargo new` is the only command, comes first, and nothing is written if it fails.", "quantifier": "every project name, mode and manifest", "why_tests_cant": "all manifests; the script has no tests", "anchors": ["mdbook-source-code/new_project.rs"]}
{"id": "C57", "title": "a flavor named on the item is the flavor named at the root", "statement": "Writing `#[hooq::flavor = g]` on an item under `#[hooq]` or `#[hooq(f)]` gives the item that `#[hooq(g)]` gives, token for token; only the imported traits may differ. It is required that the flavor of the root defines no binding that g lacks, and that the other attributes of the item neither set a method nor append ignored names.", "quantifier": "every item, every two flavors, every set of other attributes", "why_tests_cant": "all flavors, including user defined ones, and all items; the tests have a few items with a flavor attribute and do not compare them with the root attribute", "anchors": ["hooq-macros/src/impls/inert_attr/parse.rs", "hooq-macros/src/impls/inert_attr/context.rs", "docs/en/hooq-mdbook-en/src/reference/attributes.md"]}
{"id": "C58", "title": "a setting on a module, impl block or trait is a setting on each member", "statement": "Writing hooq attributes on a module, an impl block or a trait gives the same tokens as writing them on each of its members that the macro reads, in both directions; attributes of the members may override them, unless both set a method, add to the ignored names, or skip.", "quantifier": "every list of hooq attributes, every module, impl block or trait with any members", "why_tests_cant": "all settings and all members at any size", "anchors": ["hooq-macros/src/impls/walker/mod.rs", "hooq-macros/src/impls/inert_attr/context.rs"]}
{"id": "C59", "title": "the order of hooq attributes that set different things does not matter", "statement": "Two programs that differ only in the order of the hooq attributes of a node (also in how they are mixed with other attributes) expand to the same tokens, as long as no two attributes reordered on one node set the same thing: a method, targets, tails, ignored names, result types, hook_in_macros, or a binding of the same name. The node may be any item, member, statement or expression at any depth, but not below the operand of `?` or `return`, below a tail expression, or in the arguments of a macro, whose text `$source` can show.", "quantifier": "every program, every reordering, on any number of nodes at once", "why_tests_cant": "all combinations and orders of attributes; the tests fix one order", "anchors": ["hooq-macros/src/impls/inert_attr/parse.rs", "hooq-macros/src/impls/inert_attr/context.rs"]}
{"id": "C60", "title": "only what the attributes of a node amount to matters", "statement": "Lists of attributes after which the same settings are in force may be written for each other on any node of a program where C59 allows reordering: the expansion is the same, token by token. In particular an attribute whose settings are all set again later on the same node can be deleted, `#[hooq::binding(x = v)]`, `#[hooq::var(x = v)]` and `#[hooq::x = v]` are the same, and `#[hooq::flavor = f]` is the same as `method = f`, `hook_targets = f`, `tail_expr_idents = f`, `result_types = f`, `hook_in_macros = f` and `bindings = f` together.", "quantifier": "every program, every pair of attribute lists with the same settings, on any number of nodes at once", "why_tests_cant": "all spellings of all settings in all places", "anchors": ["hooq-macros/src/impls/inert_attr/parse.rs", "hooq-macros/src/impls/inert_attr/context.rs", "hooq-macros/src/impls/walker/mod.rs"]}
{"id": "C61", "title": "functions of a small part of Rust are expanded whatever their hooq attributes set", "statement": "Take a function of the part of Rust of C52 and put hooq attributes on its expressions, statements and on itself. If every attribute that is read can be read, and every method or flavor that is set (at the root or by an attribute) is either a chain of method calls or, in place of the expression, `$expr` or a call of a function, given by name or path, with calls after it (their arguments being literals, names, paths, `$expr`, `$`-variables that stand for a literal, and closures), with or without the mark that removes the `?`, then the function is expanded: nothing panics, no error is reported, no hooq attribute is left, and what is printed reads back. The same holds if all methods are chains of calls among which those set by attributes may have `$so_far`. Skips, targets, bindings, lists of names and flavors may change from node to node; a method may use the variables of the flavor at the root and those bound by the attributes of its own node and of all that encloses it, and without a binding for one of its variables there may be an error. Under methods `.inspect_err(|e| { .. })` the expanded function runs as the source did: the same result, the same calls, the same ways out; with `.with_context` and `.wrap_err_with` it does so up to contexts of errors. The methods of all presets are of the first kind, and all but `empty` of the others.", "quantifier": "every function of that part of Rust, every placement of attributes that meets the condition, every such flavor, every library and start state", "why_tests_cant": "all programs, all placements of attributes and all executions", "anchors": ["hooq-macros/src/impls/walker/mod.rs", "hooq-macros/src/impls/inert_attr/context.rs", "hooq-macros/src/impls/method/render/mod.rs", "hooq-macros/src/impls/flavor/presets"]}
{"id": "C62", "title": "what the code inserted by a preset reports", "statement": "Wherever the method of a preset other than `empty` and `hook` is in effect, the hook is the target followed by a method call with one closure, and the closure, which uses no name but its own bindings and its parameter, does nothing but make one report: `default` prints the file, line and column of the hook, the error and an excerpt of the source; `log` emits a record with the same at the level `$level` stands for at that place; `tracing` emits an event with path, line, col, error and the source on one line at that level; `anyhow`, `eyre` and `color_eyre` give position and excerpt as the context. `$level` is what the nearest attribute binds it to, which must be a path of two names or more or begin with `::` (a single name may be one the closure binds itself), and otherwise the level of the name of the preset. The excerpt is asked of the helper macros of the crate under the name it has in the program.", "quantifier": "every program, every placement of attributes, every hook at which the method of a preset is in effect, every name of the crate, both settings of consume-question", "why_tests_cant": "all programs and positions; the snapshots show one program per preset", "anchors": ["hooq-macros/src/impls/flavor/mod.rs:52-71", "hooq-macros/src/impls/flavor/presets/log.rs:16-59", "hooq-macros/src/impls/flavor/presets/tracing.rs:16-65", "hooq-macros/src/impls/flavor/presets/anyhow.rs:7-28", "hooq-macros/src/impls/flavor/presets/eyre.rs:7-42", "docs/en/hooq-mdbook-en/src/reference/flavors.md:176-210"]}
{"id": "C63", "title": "modules, impl blocks and traits are expanded whole, and each of their functions does what it did", "statement": "A module, impl block or trait (nested as one likes) whose functions and constants belong to a small part of Rust, with hooq attributes anywhere that can be read and set methods of the kinds of C61, is expanded: every function keeps its signature, and every body and constant of the output is again of that part of Rust and is read back from its tokens as it is. If the methods inspect errors, each function, in order, runs as it did; if they add contexts, up to contexts; the last two hold for the functions of any item that is expanded. Under every preset but `empty`, without attributes, this is so unconditionally (the runs for all but `hook`).", "quantifier": "all modules, impl blocks and traits of the grammar, all placements of attributes, all libraries, worlds and bounds on loops", "why_tests_cant": "unboundedly many items, functions and executions", "anchors": ["hooq-macros/src/impls/walker/mod.rs:163-392", "hooq-macros/src/impls/inert_attr/context.rs", "hooq-macros/src/impls/method/render/mod.rs"]}
{"id": "C64", "title": "a function that is expanded more than once", "statement": "`#[hooq]` on a function within an item that has `#[hooq]` too stays there, so the function is expanded again. However often a function is expanded, with hooks `.inspect_err(f)` it does what it did: the same result, the same calls, the same ways out; with hooks that add contexts it does so up to contexts. The reports show the source, as after one expansion.", "quantifier": "every function, every number of expansions, each with its own flavor, attributes and environment, every library and start state", "why_tests_cant": "all functions, sequences of expansions and executions; no test nests the macro", "anchors": ["hooq-macros/src/impls/walker/mod.rs", "hooq-macros/src/impls/walker/walk_macro.rs", "hooq-macros/src/impls/inert_attr/mod.rs"]}
