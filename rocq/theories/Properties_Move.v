(** Property C50: moving or reformatting a program.

    [g] takes the old position of a token to its new one ([item_map g true], MoveSpec.v).  Positions that are not in the file ([call_site]) stay. *)
From Coq Require Import String Ascii Bool Arith List.
From Verif Require Import Base Tokens Method Paths Context Flavor Attrs Syntax Render Walker RootAttr TomlStore RenderSpec FlavorSpec FlavorStoreProofs MoveSpec MoveProofs WalkExamples Properties_Attrs Properties_Progress.
Import ListNotations.
Open Scope string_scope.
Open Scope list_scope.

(** * C50: the expansion moves with the program *)
(** whatever the positions: the macro succeeds, fails or panics alike, and the output is the same token by token, each token at its new place, except that a literal with a
    position has the new position, and a literal with the printed form of some tokens has that of the moved tokens *)
Theorem C50 g E PPs args it : g call_site = call_site -> reads_moved g E -> reads_settings_moved g E -> reads_paths_moved g PPs ->
  match hooq_impls PPs E args it, hooq_impls PPs E (map (meta_map g) args) (item_map g true it) with
  | Ok ts, Ok ts' => Forall2 (moved g E) ts ts'
  | Err x, Err y => x = y
  | Panic x, Panic y => x = y
  | _, _ => False
  end.
Proof. exact (fun Hg HE HS HP => macro_moved g Hg E HS HE PPs args it HP). Qed.
Print Assumptions C50.
(** the hooks are the same: applied at the same places to the same things with the same numbers and settings, and the same [?] are consumed.
    ([item_map _ false] leaves out the texts put in) *)
Theorem C50_hooks g E f it n : g call_site = call_site -> reads_moved g E -> reads_settings_moved g E -> core_map g f = f ->
  match walk_item E (ctx_new f) it n, walk_item E (ctx_new f) (item_map g true it) n with
  | Ok (out, m), Ok (out', m') => m = m' /\ item_map (fun x => x) false out' = item_map g false out /\ Forall2 (moved g E) (itoks out) (itoks out')
  | Err x, Err y => x = y
  | Panic x, Panic y => x = y
  | _, _ => False
  end.
Proof.
  intros Hg HE HS Hf. destruct (sim_moved g Hg E HS HE) as (_ & _ & HI & _). specialize (HI it (ctx_new f) n). rewrite (new_map g f Hf) in HI.
  destruct (walk_item E (ctx_new f) it n) as [[o k]|x|x], (walk_item E (ctx_new f) (item_map g true it) n) as [[o' k']|y|y]; try exact HI.
  destruct HI as (Hk & Ht & Ho). split; [exact Hk|]. split; [exact Ho|exact Ht].
Qed.
Print Assumptions C50_hooks.
(** the law about flavors holds for every look-up the macro can make: in a process that has expanded [h] before, with any file on disk *)
Theorem C50_lookup g env te h dir d : g call_site = call_site -> (forall p, ae_flavor env p = flavor_lookup te dir d (after_history te h []) p) -> reads_toml_still g te ->
  forall p f, ae_flavor env p = Ok f -> core_map g f = f.
Proof. intros Hg HL HT p f H. rewrite HL in H. exact (lookup_still g Hg te HT dir d _ p f H). Qed.
Print Assumptions C50_lookup.

(** * A concrete case *)
(** ten lines further down and four columns to the right *)
Definition x_down (s : span) : span := if String.eqb (sp_file s) "" then s else mk_span (sp_file s) (sp_line s + 10) (sp_col s + 4).
(** a reader of [name = value] *)
Definition x_mnv (ts : list tt) : option (path * list tt) :=
  match ts with TIdent s sp :: TPunct c _ :: r => if Ascii.eqb c "=" then Some (mk_path false [mk_seg s [] sp], r) else None | _ => None end.
(** a printer that shows where a text starts *)
Definition x_print (ts : list tt) : string := match ts with t :: _ => if Nat.leb (sp_line (ts_span [t])) 9 then "early" else "late" | [] => "" end.
Definition x_reader (ts : list tt) : option (list path) := match ts with [TIdent s sp] => Some [mk_path false [mk_seg s [] sp]] | _ => None end.
Definition xm_env : env := mk_env (mk_attr_env false (flavor_lookup x_te "." DiskAbsent (after_history x_te [] [])) x_mnv) (fun ts => match ts with [] => None | _ => Some (EVerbatim ts) end) x_print.
(** fn f() -> Result {
        #[hooq::method(.at($line, $source))] a()?;
        return Err(b)
    } *)
Definition xm_path (l c : nat) (s : string) : path := mk_path false [mk_seg s [] (at_ l c)].
Definition xm_item : item :=
  IFn [] [] (mk_sig "f" (RetPath (xm_path 1 9 "Result")) [TIdent "fn" (at_ 1 0); TIdent "f" (at_ 1 3)]) (at_ 1 16)
    [SExpr (ETry [mk_attr false (at_ 2 4) (MList (mk_path false [mk_seg "hooq" [] (at_ 2 6); mk_seg "method" [] (at_ 2 12)]) Parenth
                    [TPunct "." (at_ 2 19); TIdent "at" (at_ 2 20);
                     TGroup Parenth [TPunct "$" (at_ 2 23); TIdent "line" (at_ 2 24); TPunct "," (at_ 2 28); TPunct "$" (at_ 2 30); TIdent "fn_sig" (at_ 2 31)] (at_ 2 22)] (at_ 2 18))]
              (ECall [] (EPath [] (xm_path 3 4 "a")) (at_ 3 5) [] []) (at_ 3 7)) (Some (at_ 3 8));
     SExpr (EReturn [] (at_ 4 4) (Some (ECall [] (EPath [] (xm_path 4 11 "Err")) (at_ 4 14) [EPath [] (xm_path 4 15 "b")] []))) None].
Lemma down_mnv : forall ts, x_mnv (toks_map x_down ts) = option_map (fun x => (path_map x_down (fst x), toks_map x_down (snd x))) (x_mnv ts).
Proof. intros [|[] [|[] r]]; try reflexivity. cbn [toks_map map tok_map x_mnv]. destruct (Ascii.eqb c "="); reflexivity. Qed.
Example C50_ex : x_down call_site = call_site /\ reads_moved x_down xm_env /\ reads_settings_moved x_down xm_env /\ reads_paths_moved x_down x_reader /\
  (exists ts ts', hooq_impls x_reader xm_env [] xm_item = Ok ts /\ hooq_impls x_reader xm_env [] (item_map x_down true xm_item) = Ok ts' /\
     ts' <> toks_map x_down ts /\ Forall2 (moved x_down xm_env) ts ts').
Proof.
  assert (HE : reads_moved x_down xm_env).
  { intros ts ts' H. cbn [xm_env ev_parse]. destruct H as [|t t' r r' Ht Hr]; [exact I|]. split; [constructor; assumption|reflexivity]. }
  assert (HS : reads_settings_moved x_down xm_env).
  { split; [exact down_mnv|]. eapply (C50_lookup x_down _ x_te [] "." DiskAbsent); [reflexivity|intros p; reflexivity|]. split; [|split]; discriminate. }
  assert (HP : reads_paths_moved x_down x_reader) by (intros [|[] [|? r]]; reflexivity).
  split; [reflexivity|]. split; [exact HE|]. split; [exact HS|]. split; [exact HP|].
  pose proof (C50 x_down xm_env x_reader [] xm_item eq_refl HE HS HP) as H. cbn [map] in H.
  destruct (hooq_impls x_reader xm_env [] xm_item) as [ts| |] eqn:E1; [|vm_compute in E1; discriminate..].
  destruct (hooq_impls x_reader xm_env [] (item_map x_down true xm_item)) as [ts'| |] eqn:E2; [|contradiction..].
  exists ts, ts'. split; [reflexivity|]. split; [reflexivity|]. split; [|exact H]. intros Hn. subst ts'. vm_compute in E1. injection E1 as <-. vm_compute in E2. discriminate.
Qed.
(** a hooq.toml with a flavor [mine] whose method is [.log($line)] *)
Definition xm_te : toml_env := mk_toml_env x_features (fun _ => None) (fun s => if String.eqb s ".log($line)" then Some [qp "."; qi "log"; qg Parenth [qp "$"; qi "line"]] else None) (fun _ => None).
Definition xm_doc : smap ftable := [("mine", FTable (mk_tcore [] (Some ".log($line)") None None None None None []) [])].
Example C50_ex_lookup : reads_toml_still x_down xm_te /\
  exists f, flavor_lookup xm_te "." (DiskToml xm_doc) (after_history xm_te [] []) ["mine"] = Ok f /\ core_map x_down f = f /\ m_template (fl_method f) = [qi "log"; qg Parenth [qp "$"; qi "line"]].
Proof.
  assert (HT : reads_toml_still x_down xm_te).
  { split; [discriminate|]. split; [|discriminate]. intros s ts H. cbn [xm_te te_ts] in H. destruct (String.eqb s ".log($line)"); [|discriminate]. injection H as <-. reflexivity. }
  split; [exact HT|]. eexists. split; [vm_compute; reflexivity|]. split; reflexivity.
Qed.
