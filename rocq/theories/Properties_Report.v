(** Property C62: what the code inserted by a preset reports.

    [reports name call r] (ReportSpec.v): [call] is [.name(CLOSURE)] and the closure, in which only its own bindings and its parameter can be used, makes the report [r].
    [preset_report crate p level q src]: the report of the preset [p] at the position [q] about the source [src]. *)
From Coq Require Import String Ascii Bool Arith NArith Lia List.
From Verif Require Import Base Tokens Method Paths Context Flavor Attrs Syntax Render Walker RootAttr RenderSpec AttrSpec SiteSpec ProgSpec SiteProofs SettingSpec SettingProofs WalkSpec NodeSpec WalkProofs HookProofs ProgressSpec ProgressProofs PresetProofs FlavorSpec FlavorNameProofs CrateName PresetSpec PresetTableProofs ReportSpec ReportProofs SmallRust WalkExamples Properties_Attrs Properties_Places.
From Verif Require Conformance.
Import ListNotations.
Open Scope string_scope.
Open Scope list_scope.

(** where the method of a preset is in effect the hook is the target with a call that makes the preset's report: the file, line and column of the hook, the source, the error,
    and for [log] and [tracing] the level [$level] stands for there *)
Theorem C62 E f it out s s' tr h r ft p g abs l : expands E f it out -> source it -> position it out s s' -> trail (ev_attr E) (s_frames s) tr -> s_hook s' = Some (h, r) ->
  at_path (preset_flavors ft) p g -> p <> ["empty"] -> p <> ["hook"] -> the_method f tr = fl_method (f_core g) ->
  (levelled p = true -> exists lv, the_binding f "level" tr = Some lv /\ path_toks abs l lv) ->
  exists call, reports (preset_call p) call (preset_report (ft_crate ft) p (SPath abs l) (h_span h) (etoks (without_own_hooq (s_whole s)))) /\
    ev_parse E (etoks (s_target s') ++ call) = Some r.
Proof.
  intros H Hs Hp Ht Hh Hg N1 N2 Hm Hl. destruct (hook_made E f it out s s' H Hs Hp tr h r Ht Hh) as [Hk He _ Hsrc _ (ts & Hr & Hpa)].
  destruct (preset_reports (ev_str E) ft p g (h_ctx h) (h_kind h) (h_count h) (h_source h) (etoks (s_target s')) (h_span h) abs l Hg N1 N2) as (call & Hr2 & Hc).
  - rewrite (ie_method _ _ _ He). exact Hm.
  - intros L. destruct (Hl L) as (lv & Hb & Hv). exists lv. split; [|exact Hv]. unfold get_binding. rewrite (ie_bindings _ _ _ He). exact Hb.
  - exists call. rewrite <- Hsrc. split; [exact Hc|congruence].
Qed.
Print Assumptions C62.
(** a preset that uses [$level] binds it to the level of its name *)
Theorem C62_level ft p g : at_path (preset_flavors ft) p g -> levelled p = true ->
  exists lv l, mget "level" (fl_bindings (f_core g)) = Some lv /\ preset_level p = Some l /\ path_toks true l lv.
Proof.
  intros Hg Hl. apply preset_in in Hg. cases Hg; try discriminate; do 2 eexists; (split; [reflexivity|]); (split; [reflexivity|]); repeat constructor.
Qed.
Print Assumptions C62_level.
(** so in a program without hooq attributes every hook reports where it is, the source, and that level *)
Theorem C62_plain E ft p g it out s s' h r : expands E (f_core g) it out -> source it -> position it out s s' -> at_path (preset_flavors ft) p g -> p <> ["hook"] ->
  (forall n, In n (item_nodes [] it) -> node_events (ev_attr E) (n_attrs n) []) -> s_hook s' = Some (h, r) ->
  exists call, reports (preset_call p) call (preset_report (ft_crate ft) p (SPath true (match preset_level p with Some l => l | None => [] end)) (h_span h) (etoks (without_own_hooq (s_whole s)))) /\
    ev_parse E (etoks (s_target s') ++ call) = Some r.
Proof.
  intros H Hs Hp Hg N Hn Hh. pose proof (position_in it out s s' Hp) as Hsin. destruct (hook_trail E (f_core g) it out s s' H Hs Hp h r Hh) as (tr & Ht & _).
  assert (Hq : Forall (fun x => match x with SNode es => es = [] | _ => True end) tr).
  { destruct (fr_all (fun a => node_events (ev_attr E) a [])) as (_ & _ & HI & _).
    specialize (HI it [] Hs (Forall_nil _)). rewrite !Forall_forall in HI. eapply quiet_trail; [|exact Ht]. apply HI; [|exact Hsin]. intros n Hnin. apply Hn, Hnin. }
  assert (Hme : the_method (f_core g) tr = fl_method (f_core g)).
  { clear - Hq. induction Hq as [|x tr Hx Hq IH]; [reflexivity|]. unfold the_method in *. destruct x; subst; cbn [innermost last_of]; exact IH. }
  destruct (quiet_methods (f_core g) tr Hq) as [_ Hb].
  destruct (preset_is ft p g Hg) as [[-> ->]|(Hne & _)].
  - exfalso. assert (Hk : hooked s') by (unfold hooked; rewrite Hh; discriminate). apply (position_rule E _ it out s s' H Hs Hp tr Ht) in Hk. destruct Hk as [_ Hrule].
    assert (Htg : the_targets (f_core (empty_flavor ft)) tr = mk_switch false false false).
    { clear - Hq. induction Hq as [|x tr Hx Hq IH]; [reflexivity|]. unfold the_targets in *. destruct x; subst; cbn [innermost last_of]; exact IH. }
    destruct (s_kind s); cbn [rule] in Hrule; unfold question_rule, return_rule, tail_rule in Hrule; rewrite Htg in Hrule; cbn in Hrule; intuition congruence.
  - apply (C62 E (f_core g) it out s s' tr h r ft p g true _ H Hs Hp Ht Hh Hg Hne N Hme). intros L.
    destruct (C62_level ft p g Hg L) as (lv & l & Hv & -> & Hl). exists lv. rewrite Hb. auto.
Qed.
Print Assumptions C62_plain.

(** * A concrete case: the program of mdbook-source-code/flavor-log and what it printed (tests/snapshots/test__flavor-log.snap) *)
Definition xw_ft : features := mk_features false true true true true "hooq".
Definition xw_env : env := mk_env (mk_attr_env false (fun l => bindR (get_flavor (preset_flavors xw_ft) l) (fun g => Ok (f_core g))) (fun _ => None)) rust_parse (fun _ => "text").
Definition xw_at (l c : nat) : span := mk_span "mdbook-source-code/flavor-log/src/main.rs" l c.
(** b()? *)
Definition xw_b (a : list attr) (l c : nat) : expr := ETry a (ECall [] (EPath [] (mk_path false [mk_seg "b" [] (xw_at l c)])) (xw_at l (c + 1)) [] []) (xw_at l (c + 3)).
Definition xw_level : attr := xa_set "level" (VOther [TIdent "log" call_site; qp ":"; qp ":"; qi "Level"; qp ":"; qp ":"; qi "Error"]).
(** #[hooq(log::info)] fn c(flag: bool) -> Result<(), String> { if flag { #[hooq::level = log::Level::Error] b()?; } else { b()?; } Ok(()) } *)
Definition xw_c : item := x_fn [] "c" (RetPath (xa_path ["Result"]))
  [SExpr (EIf [] [qi "if"] (x_name "flag") call_site [semi (xw_b [xw_level] 19 9)] [qi "else"] (Some (EBlock [] [] call_site [semi (xw_b [] 21 9)]))) None;
   tail (x_call "Ok" [x_name "unit"])].
Definition xw_out : item := Eval vm_compute in out_of xw_env (f_core (log_level xw_ft "Info")) xw_c.
Definition xw_core : fcore := f_core (log_level xw_ft "Info").
Example C62_ex_hypotheses : expands xw_env xw_core xw_c xw_out /\ source xw_c /\ at_path (preset_flavors xw_ft) ["log"; "info"] (log_level xw_ft "Info") /\
  (exists tr, position xw_c xw_out (site_of xw_c 0) (site_of xw_out 0) /\ trail (ev_attr xw_env) (s_frames (site_of xw_c 0)) tr /\ the_method xw_core tr = fl_method xw_core /\
     exists lv, the_binding xw_core "level" tr = Some lv /\ path_toks false ["log"; "Level"; "Error"] lv) /\
  (exists tr, position xw_c xw_out (site_of xw_c 1) (site_of xw_out 1) /\ trail (ev_attr xw_env) (s_frames (site_of xw_c 1)) tr /\ the_method xw_core tr = fl_method xw_core /\
     exists lv, the_binding xw_core "level" tr = Some lv /\ path_toks true ["log"; "Level"; "Info"] lv).
Proof.
  split; [eexists; vm_compute; reflexivity|]. split; [reflexivity|]. split; [apply in_preset; cbn; tauto|]. split.
  - eexists. split; [t_position 0|]. split; [cbn; t_trail|].
    split; [vm_compute; reflexivity|]. eexists. split; [vm_compute; reflexivity|]. repeat constructor.
  - eexists. split; [t_position 1|]. split; [cbn; t_trail|].
    split; [vm_compute; reflexivity|]. eexists. split; [vm_compute; reflexivity|]. repeat constructor.
Qed.
(** what is printed: the helper macro is [Excerpt.v]'s, on tokens of which [Conformance.v] knows where the parentheses close *)
Definition xw_ends : Conformance.ends := [(19, 10, (19, 12, "")); (21, 10, (21, 12, ""))]%N.
Definition xw_shows (v : said) : string :=
  match v with
  | SText s => s
  | SNum n => dec n
  | SPath _ l => last l ""
  | SMac _ l ts => match Conformance.excerpt xw_ends (last l "") ts with Some s => s | None => "" end
  | SError => "An error occurred in function a"
  end.
Definition xw_prints (r : report) : string :=
  match r with RLog lv ps => ("[" ++ xw_shows lv ++ "] " ++ String.concat "" (map (fun p => match p with PText s => s | PShow v | PDebug v => xw_shows v end) ps))%string | _ => "" end.
Definition xw_said (s : site) : option string :=
  match s_hook s with
  | Some (_, r) => match rev (etoks r) with TGroup Parenth a _ :: _ => option_map xw_prints (read_closure a) | _ => None end
  | None => None
  end.
(** the lines of the snapshot, but for the name of the crate and the indentation the logger adds *)
Example C62_ex_prints : map xw_said (item_sites [] xw_out) =
  [Some "[Error] (mdbook-source-code/flavor-log/src/main.rs:19:12) An error occurred in function a
  19>    b()?
    |";
   Some "[Info] (mdbook-source-code/flavor-log/src/main.rs:21:12) An error occurred in function a
  21>    b()?
    |";
   None].
Proof. vm_compute. reflexivity. Qed.
(** the other presets, without attributes *)
Definition xw_plain : item := x_fn [] "c" (RetPath (xa_path ["Result"])) [semi (xw_b [] 19 9)].
Definition xw_reads (g : flavor) : list (option report) :=
  map (fun s => match s_hook s with Some (_, r) => match rev (etoks r) with TGroup Parenth a _ :: _ => read_closure a | _ => None end | None => None end)
      (item_sites [] (out_of xw_env (f_core g) xw_plain)).
Example C62_ex_presets :
  let q := xw_at 19 12 in let src := etoks (xw_b [] 19 9) in
  xw_reads (default_flavor xw_ft) = [Some (RPrint (PText "[" :: place q ++ [PText "] "; PDebug SError; PText nl; PShow (SMac true ["hooq"; "source_excerpt_helpers"; "excerpted_pretty_stringify"] src)]))] /\
  xw_reads (anyhow_flavor xw_ft) = [Some (RFormat (PText "[" :: place q ++ [PText ("]" ++ nl)%string; PShow (SMac true ["hooq"; "source_excerpt_helpers"; "excerpted_pretty_stringify"] src)]))] /\
  xw_reads (tracing_level xw_ft "WARN") = [Some (REvent (SPath true ["tracing"; "Level"; "WARN"])
     [("path", PShow (in_file q)); ("line", PShow (SNum 19)); ("col", PShow (SNum 12)); ("error", PShow SError); ("expr", PShow (SMac true ["hooq"; "source_excerpt_helpers"; "one_line_stringify"] src))])].
Proof. vm_compute. repeat split; reflexivity. Qed.
(** a closure that uses a name it did not bind does not read *)
Example C62_ex_unbound : read_closure [qp "|"; qi "e"; qp "|"; qg Brace (qpath ["std"; "eprintln"] ++ [qp "!"; qg Parenth [qs "{e} {expr}"]; qp ";"])] = None.
Proof. reflexivity. Qed.

(** That the level must be a path is needed: a name that the closure binds itself means the closure's value.  With [#[hooq::level = line]] the level is the number of the line, whatever [line] is in the program.  *)
Definition xw_captured : item := x_fn [] "c" (RetPath (xa_path ["Result"])) [semi (xw_b [xa_set "level" (VOther [qi "line"])] 19 9)].
Theorem C62_captured_refuted : exists E ft p g it out s s' tr h r lv, expands E (f_core g) it out /\ source it /\ position it out s s' /\ trail (ev_attr E) (s_frames s) tr /\ s_hook s' = Some (h, r) /\
  at_path (preset_flavors ft) p g /\ the_method (f_core g) tr = fl_method (f_core g) /\ the_binding (f_core g) "level" tr = Some [TIdent "line" lv] /\
  exists call, ev_parse E (etoks (s_target s') ++ call) = Some r /\
    reports (preset_call p) call (preset_report (ft_crate ft) p (SNum (sp_line (h_span h))) (h_span h) (etoks (without_own_hooq (s_whole s)))).
Proof.
  pose (out := out_of xw_env xw_core xw_captured). vm_compute in out.
  exists xw_env, xw_ft, ["log"; "info"], (log_level xw_ft "Info"), xw_captured, out, (site_of xw_captured 0), (site_of out 0).
  do 4 eexists. split; [eexists; vm_compute; reflexivity|]. split; [reflexivity|]. split; [t_position 0|]. split; [cbn; t_trail|]. split; [reflexivity|]. split; [apply in_preset; cbn; tauto|].
  split; [vm_compute; reflexivity|]. split; [vm_compute; reflexivity|].
  match goal with |- exists call, ev_parse _ _ = Some ?r /\ _ => exists (rev (firstn 3 (rev (etoks r)))) end. split; [vm_compute; reflexivity|].
  do 4 eexists. split; vm_compute; reflexivity.
Qed.
Print Assumptions C62_captured_refuted.
