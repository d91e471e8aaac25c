{
 "claims": [
  {
   "property": "C01",
   "status": "proved",
   "theorems": [
    "C01_positions",
    "C01_images",
    "C01_all_hooks",
    "C01_all_hook_nodes",
    "C01_reached",
    "C01_question",
    "C01_one",
    "C01_settings",
    "C01_text"
   ],
   "note": ""
  },
  {
   "property": "C02",
   "status": "partial",
   "theorems": [
    "C02_positions",
    "C02_return_partial",
    "C02_return_default",
    "C02_return_seen",
    "C02_return_refuted"
   ],
   "note": "proved for every value without the feature consume-question, and with it for every value that is no `e?` or `(e?)(..)`; refuted for `return a()?` when a method ending in `!` replaced the `?` by a call"
  },
  {
   "property": "C03",
   "status": "partial",
   "theorems": [
    "C03_tail_partial",
    "C03_tail_default",
    "C03_tail_seen",
    "C03_tail_refuted"
   ],
   "note": "as for C02"
  },
  {
   "property": "C04",
   "status": "proved",
   "theorems": [
    "C04_bare",
    "C04_targets"
   ],
   "note": ""
  },
  {
   "property": "C05",
   "status": "partial",
   "theorems": [
    "C05_skip",
    "C05_beyond_partial",
    "C05_beyond_refuted"
   ],
   "note": "the scope of skip is proved; that scopes under it are decided as if it were absent is proved unless skip_all encloses it, and refuted there"
  },
  {
   "property": "C06",
   "status": "partial",
   "theorems": [
    "C06_skip_all_partial",
    "C06_skip_all_refuted"
   ],
   "note": "proved unless a skip lies between; refuted there"
  },
  {
   "property": "C07",
   "status": "proved",
   "theorems": [
    "C07_innermost",
    "C07_root",
    "C07_decision",
    "C07_local",
    "C07_local_settings"
   ],
   "note": ""
  },
  {
   "property": "C08",
   "status": "proved",
   "theorems": [
    "C08_innermost",
    "C08_root",
    "C08_other",
    "C08_value"
   ],
   "note": ""
  },
  {
   "property": "C09",
   "status": "proved",
   "theorems": [
    "C09_so_far",
    "C09_nothing_overridden"
   ],
   "note": ""
  },
  {
   "property": "C10",
   "status": "proved",
   "theorems": [
    "C10_count",
    "C10_count_source",
    "C10_unique",
    "C10_increasing",
    "C10_numbers",
    "C10_source_refuted"
   ],
   "note": "whether a return or tail counts is told by its value as it stands in the output (C02_return_seen); by its value as written this fails when the ? in it is removed by a method ending in ! (C10_source_refuted)"
  },
  {
   "property": "C11",
   "status": "partial",
   "theorems": [
    "C11_one_fn_partial",
    "C11_refuted"
   ],
   "note": "the counter is shared by the whole annotated item"
  },
  {
   "property": "C12",
   "status": "proved",
   "theorems": [
    "C12_ordinal"
   ],
   "note": ""
  },
  {
   "property": "C13",
   "status": "proved",
   "theorems": [
    "C13_source",
    "C13_no_hooks",
    "C13_whole"
   ],
   "note": ""
  },
  {
   "property": "C14",
   "status": "partial",
   "theorems": [
    "C14_substitution_partial",
    "C14_filled",
    "C14_values",
    "C14_render",
    "C14_trailing_refuted"
   ],
   "note": "proved for templates in which every `$` has a name; refuted for a `$` at the end of a stream, which is dropped; C14_filled says what happens to every template"
  },
  {
   "property": "C15",
   "status": "partial",
   "theorems": [
    "C15_dollars_partial",
    "C15_trailing_refuted"
   ],
   "note": "a `$` followed by a non-identifier is rejected; the full claim is refuted: a `$` that ends a stream is dropped"
  },
  {
   "property": "C16",
   "status": "proved",
   "theorems": [
    "C16_known",
    "C16_error",
    "C16_template",
    "C16_success",
    "C16_no_shadowing"
   ],
   "note": ""
  },
  {
   "property": "C17",
   "status": "proved",
   "theorems": [
    "C17_kept",
    "C17_longer"
   ],
   "note": "kept attributes are exactly the filter; longer hooq paths are refused"
  },
  {
   "property": "C18",
   "status": "partial",
   "theorems": [
    "C18_nodes",
    "C18_removed_partial",
    "C18_others",
    "C18_refuted"
   ],
   "note": "exactly which hooq attributes stay is proved; refuted for every place that is not handled (path or literal that is no tail, let without initialiser, match arm, item without code, macro_rules, left side of an assignment)"
  },
  {
   "property": "C19",
   "status": "proved",
   "theorems": [
    "C19_targets",
    "C19_order",
    "C19_unknown",
    "C19_attribute"
   ],
   "note": "list semantics, order and repetition, first unknown word, and the attribute"
  },
  {
   "property": "C20",
   "status": "proved",
   "theorems": [
    "C20_tails",
    "C20_ignores",
    "C20_inherited"
   ],
   "note": ""
  },
  {
   "property": "C21",
   "status": "partial",
   "theorems": [
    "C21_meaning_partial",
    "C21_error",
    "C21_accepted",
    "C21_refuted",
    "C21_leading_refuted"
   ],
   "note": "every accepted hooq attribute is documented or one of the listed odd forms; the full statement is refuted by `#[hooq::skip = v]` and `#[::hooq::method = v]`, which silently become bindings"
  },
  {
   "property": "C22",
   "status": "proved",
   "theorems": [
    "C22_off",
    "C22_opaque",
    "C22_unreached",
    "C22_loop"
   ],
   "note": "relative to the four parsers of syn (Section variables in EvalList.v)"
  },
  {
   "property": "C23",
   "status": "partial",
   "theorems": [
    "C23_conserved_partial",
    "C23_pieces",
    "C23_refuted"
   ],
   "note": "proved without inner attributes at the start of the arguments; refuted there: they are dropped"
  },
  {
   "property": "C24",
   "status": "partial",
   "theorems": [
    "C24_existing_partial",
    "C24_new_top_partial",
    "C24_new_sub_partial",
    "C24_new_tree_partial",
    "C24_untouched",
    "C24_traits",
    "C24_traits_refuted",
    "C24_copied_refuted"
   ],
   "note": "proved for every setting but trait_uses; refuted for trait_uses (always overwritten) and for sub-flavors whose name is copied from a preset's sub-flavors"
  },
  {
   "property": "C25",
   "status": "proved",
   "theorems": [
    "C25_accepted",
    "C25_same_flavors",
    "C25_acceptance"
   ],
   "note": ""
  },
  {
   "property": "C26",
   "status": "proved",
   "theorems": [
    "C26_checked",
    "C26_no_panic"
   ],
   "note": ""
  },
  {
   "property": "C27",
   "status": "proved",
   "theorems": [
    "C27_not_redefined",
    "C27_rejected",
    "C27_no_hooks",
    "C27_empty"
   ],
   "note": ""
  },
  {
   "property": "C28",
   "status": "proved",
   "theorems": [
    "C28_string",
    "C28_string_sound",
    "C28_string_joined",
    "C28_same",
    "C28_lookup",
    "C28_names"
   ],
   "note": ""
  },
  {
   "property": "C29",
   "status": "proved",
   "theorems": [
    "C29_expansion",
    "C29_forms"
   ],
   "note": ""
  },
  {
   "property": "C30",
   "status": "proved",
   "theorems": [
    "C30_cache",
    "C30_isolated"
   ],
   "note": ""
  },
  {
   "property": "C31",
   "status": "partial",
   "theorems": [
    "C31_truncation_partial",
    "C31_length",
    "C31_unique",
    "C31_idempotent_partial",
    "C31_small",
    "C31_small_refuted"
   ],
   "note": "proved for max_len >= 2; below that a cut line is the two characters `..` (C31_small), so the claim for every max_len is refuted"
  },
  {
   "property": "C32",
   "status": "partial",
   "theorems": [
    "C32_every_token",
    "C32_in_place_partial",
    "C32_lines_partial",
    "C32_multi_line_refuted"
   ],
   "note": "that every token appears once in order is proved for all inputs; the positions only when no token text contains a line break, refuted for multi-line literals"
  },
  {
   "property": "C33",
   "status": "proved",
   "theorems": [
    "C33_excerpt",
    "C33_lines",
    "C33_exact",
    "C33_zero"
   ],
   "note": ""
  },
  {
   "property": "C34",
   "status": "partial",
   "theorems": [
    "C34_numbers_partial",
    "C34_source_line_partial",
    "C34_margin_refuted"
   ],
   "note": "proved when the end line of the span is known; refuted otherwise (margin width)"
  },
  {
   "property": "C35",
   "status": "proved",
   "theorems": [
    "C35_one_line",
    "C35_visible",
    "C35_joined"
   ],
   "note": ""
  },
  {
   "property": "C36",
   "status": "partial",
   "theorems": [
    "C36_options",
    "C36_bad_option",
    "C36_effect_partial",
    "C36_effect_pretty_partial",
    "C36_effect_one_line_partial",
    "C36_padding_top_refuted",
    "C36_max_len_refuted"
   ],
   "note": "parsing of options is proved in full; the effects are those of the code, the documented ones of @padding=\"top\" and @max_len are refuted"
  },
  {
   "property": "C37",
   "status": "proved",
   "theorems": [
    "C37_payload",
    "C37_get_binding"
   ],
   "note": ""
  },
  {
   "property": "C38",
   "status": "proved",
   "theorems": [
    "C38_hash_order"
   ],
   "note": ""
  },
  {
   "property": "C39",
   "status": "proved",
   "theorems": [
    "C39_fn",
    "C39_closure",
    "C39_outside",
    "C39_closure_outside",
    "C39_text"
   ],
   "note": ""
  },
  {
   "property": "C40",
   "status": "partial",
   "theorems": [
    "C40_whole_partial",
    "C40_whole_refuted"
   ],
   "note": "proved for targets that are one operand; refuted for `return a + b`, which becomes `return a + b.log()`"
  },
  {
   "property": "C41",
   "status": "partial",
   "theorems": [
    "C41_consumed",
    "C41_left",
    "C41_bang",
    "C41_method",
    "C41_default",
    "C41_survive_partial",
    "C41_attributes_refuted"
   ],
   "note": "when a `?` goes is proved; that its attributes survive is refuted"
  },
  {
   "property": "C42",
   "status": "partial",
   "theorems": [
    "C42_failure",
    "C42_lookup",
    "C42_success",
    "C42_readable",
    "C42_macro",
    "C42_presets_parse",
    "C42_preset_text",
    "C42_presets_partial",
    "C42_presets_refuted"
   ],
   "note": "the general statement is proved for every flavor look-up the macro can make (C42_lookup) and for the macro with its arguments (C42_macro); the claim about presets holds if the parser of parse_quote! reads TARGET.method(closure) for every target (C42_presets_partial), and fails for a target that is a cast, which syn does not let a method call follow (C42_presets_refuted)"
  },
  {
   "property": "C43",
   "status": "partial",
   "theorems": [
    "C43_once_partial",
    "C43_return_tail_refuted",
    "C43_consumed_tail_refuted"
   ],
   "note": "a position carries at most one hook; overlapping positions are refuted"
  },
  {
   "property": "C44",
   "status": "proved",
   "theorems": [
    "C44_same",
    "C44_module",
    "C44_impl",
    "C44_trait",
    "C44_same_countless",
    "C44_module_countless",
    "C44_impl_countless",
    "C44_trait_countless",
    "C44_hooks"
   ],
   "note": "same hooks with the same settings, and the same text apart from the numbers in counts; the parser of parse_quote! is any function that does not look into string literals (reads_alike)"
  },
  {
   "property": "C45",
   "status": "proved",
   "theorems": [
    "C45_file",
    "C45_unique"
   ],
   "note": ""
  },
  {
   "property": "C46",
   "status": "partial",
   "theorems": [
    "C46_question",
    "C46_return",
    "C46_question_text",
    "C46_return_text",
    "C46_tail_seen",
    "C46_tail_partial",
    "C46_tail_refuted"
   ],
   "note": "proved for every ? and return; for tails proved if the rendered target starts where the written one does, refuted otherwise"
  },
  {
   "property": "C47",
   "status": "partial",
   "theorems": [
    "C47_hooked_partial",
    "C47_count_partial",
    "C47_settings",
    "C47_refuted"
   ],
   "note": "proved for ?, and for return and tail if the value is no ? or no method ends in ! (keeps_form); refuted otherwise: a ? that is consumed decides on the return around it"
  },
  {
   "property": "C48",
   "status": "proved",
   "theorems": [
    "C48_paths",
    "C48_settings",
    "C48_call",
    "C48_imports",
    "C48_level",
    "C48_empty",
    "C48_independent"
   ],
   "note": ""
  },
  {
   "property": "C49",
   "status": "partial",
   "theorems": [
    "C49_name",
    "C49_presets_partial",
    "C49_refuted"
   ],
   "note": "proved for the methods of the presets as written; refuted for what $hooq_meta and $bindings expand to, hence for the preset hook"
  },
  {
   "property": "C50",
   "status": "proved",
   "theorems": [
    "C50",
    "C50_hooks",
    "C50_lookup"
   ],
   "note": "relative to parsers of syn that do not look at positions (reads_moved, reads_settings_moved, reads_paths_moved); for flavors this is proved of every look-up (C50_lookup) if what is read from hooq.toml has no position in the program"
  },
  {
   "property": "C51",
   "status": "proved",
   "theorems": [
    "C51",
    "C51_run",
    "C51_run_context",
    "C51_rounds",
    "C51_ends",
    "C51_preset_hooks",
    "C51_presets",
    "C51_presets_run",
    "C51_presets_run_context"
   ],
   "note": "that the text of a hook means what its target means is a hypothesis of C51 (what the parser makes of it: C40 shows that a target that binds weakly is read differently). The runs are those of RunSpec: labels, macros, struct literals, casts, ranges, async and closures given to functions other than six methods of Result and Option are stuck there, values behind references are the library's, and hooks with `.hook(..)`, a method of the user, are not covered."
  },
  {
   "property": "C52",
   "status": "proved",
   "theorems": [
    "C52",
    "C52_run",
    "C52_run_context",
    "C52_macro",
    "C52_parser",
    "C52_unambiguous",
    "C52_laws",
    "C52_operator_tail_refuted"
   ],
   "note": "for the part of Rust of SmallRust.v, with its parser as ev_parse (not in it: generic arguments in paths, paths that begin with `::`, struct literals, casts, ranges with an end open, macros, labels; in the runs a closure of the source runs where it is given to one of six methods of Result and Option, and is stuck elsewhere); C52_operator_tail_refuted shows why the last expression of the body must not be an operator expression; the other parsers of syn (name = value, trait paths) and the look-up of flavors stay oracles"
  },
  {
   "property": "C53",
   "status": "proved",
   "theorems": [
    "C53_check",
    "C53_check_reads",
    "C53_sync",
    "C53_then_check",
    "C53_writes",
    "C53_published",
    "C53_failed_unchanged_refuted"
   ],
   "note": "relative to the tools: cargo sort keeps what manifests say, printed TOML reads back, a tag changes no file (record tools, with an instance). That a run that fails changes nothing is not claimed by the code and is refuted"
  },
  {
   "property": "C54",
   "status": "partial",
   "theorems": [
    "C54_all",
    "C54_only",
    "C54_place",
    "C54_site_url_refuted"
   ],
   "note": "proved but for the address: the edited book.toml is never written back, so the address is that of the checked out file (refuted with the file of the repository)"
  },
  {
   "property": "C55",
   "status": "partial",
   "theorems": [
    "C55_mask_unmask",
    "C55_unmask_mask_partial",
    "C55_unmask_mask_refuted",
    "C55_masked",
    "C55_twice_partial",
    "C55_twice_refuted",
    "C55_files",
    "C55_any"
   ],
   "note": "unmask then mask is proved for roots of which no proper beginning is also the end, refuted in general; that twice is once is proved for roots that begin with a slash and have no angle brackets, refuted in general"
  },
  {
   "property": "C56",
   "status": "proved",
   "theorems": [
    "C56",
    "C56_any"
   ],
   "note": ""
  },
  {
   "property": "C57",
   "status": "proved",
   "theorems": [
    "C57_flavor_on_item",
    "C57_macro",
    "C57_bindings_refuted",
    "C57_back_refuted"
   ],
   "note": "the conditions are needed: a binding of the flavor at the root stays visible (C57_bindings_refuted); the converse fails, since a method on the item may refer to the method of the root by $so_far (C57_back_refuted)"
  },
  {
   "property": "C58",
   "status": "proved",
   "theorems": [
    "C58_mod",
    "C58_impl",
    "C58_trait",
    "C58_method_refuted",
    "C58_skip_refuted"
   ],
   "note": "the conditions on the attributes of the members are needed (C58_method_refuted, C58_skip_refuted)"
  },
  {
   "property": "C59",
   "status": "proved",
   "theorems": [
    "C59_order",
    "C59_method_refuted"
   ],
   "note": "of two attributes that set the same thing the last counts, so the condition is needed (C59_method_refuted)"
  },
  {
   "property": "C60",
   "status": "proved",
   "theorems": [
    "C60_meaning",
    "C60_overridden",
    "C60_parts",
    "C60_source_refuted"
   ],
   "note": "below the operand of `?` the statement fails, since $source shows hooq attributes (C60_source_refuted)"
  },
  {
   "property": "C61",
   "status": "proved",
   "theorems": [
    "C61",
    "C61_stacked",
    "C61_run",
    "C61_run_context",
    "C61_presets",
    "C61_empty",
    "C61_any_method_refuted",
    "C61_unbound_refuted",
    "C61_so_far_refuted"
   ],
   "note": "for the part of Rust of SmallRust.v with its parser as ev_parse, as in C52; methods that replace the expression and repeat others by `$so_far` are not covered, nor templates that are neither calls nor `$expr`; where attributes are not read (match arms, leaves that are no tail, the left side of an assignment) there must be none of hooq. C61_any_method_refuted and C61_unbound_refuted show that the conditions on methods and their variables are needed, C61_so_far_refuted that the method at the root must not have `$so_far`"
  },
  {
   "property": "C62",
   "status": "proved",
   "theorems": [
    "C62",
    "C62_level",
    "C62_plain",
    "C62_captured_refuted"
   ],
   "note": "for all presets but empty (no hooks) and hook (its $hooq_meta is C37); read with a small reader of closures (ReportSpec.v), in which a name that the closure does not bind does not read; what the helper macro makes of the source is C31-C33. A level that an attribute binds must be written as a path of at least two names or one that begins with `::`. The example reproduces the snapshot of mdbook-source-code/flavor-log"
  },
  {
   "property": "C63",
   "status": "proved",
   "theorems": [
    "C63",
    "C63_stacked",
    "C63_functions",
    "C63_functions_context",
    "C63_run",
    "C63_run_context",
    "C63_presets"
   ],
   "note": "for the part of Rust and the methods of C61, with the parser of SmallRust.v as ev_parse; items that are macro calls are not in it (C63_functions covers the functions of any expanded item); functions nested in bodies are not listed by `functions`"
  },
  {
   "property": "C64",
   "status": "partial",
   "theorems": [
    "C64",
    "C64_context",
    "C64_shown_refuted"
   ],
   "note": "that reports show the source is false after a second expansion (C64_shown_refuted); that the printed item is read back as it is is part of the statement (proved for the part of Rust of C61), and so is that the expansions succeed"
  }
 ]
}