(** Programs used as examples by the property files.  *)
From Coq Require Import String Ascii Bool Arith Lia List.
From Verif Require Import Base Tokens Method MethodSpec MethodProofs Paths Context Flavor Attrs Syntax Render Walker RootAttr RenderSpec AttrSpec SiteSpec ProgSpec SettingSpec FlavorTomlProofs AttrProofs WalkSpec Properties_Attrs.
Import ListNotations.
Open Scope string_scope.
Open Scope list_scope.

Definition at_ (l c : nat) : span := mk_span "src/main.rs" l c.
(** rendered tokens parse to an opaque expression *)
Definition x_env : env := mk_env xa_env (fun ts => Some (EVerbatim ts)) (fun _ => "text").
(** [.log()], [?], [return] and tail expressions hooked, macros entered *)
Definition x_core : fcore :=
  {| fl_traits := []; fl_method := Insert call_site [qi "log"; qg Parenth []] false; fl_targets := mk_switch true true true;
     fl_tails := ["Err"]; fl_ignores := ["Ok"]; fl_results := ["Result"]; fl_macros := true; fl_bindings := [("k", [qi "v"])] |}.
Definition x_name (s : string) : expr := EPath [] (xa_path [s]).
Definition x_call_a (a : list attr) (s : string) (es : list expr) : expr := ECall a (x_name s) call_site es [].
Definition x_call := x_call_a [].
Definition x_try_a (a : list attr) (e : expr) : expr := ETry a e call_site.
Definition x_try := x_try_a [].
Definition x_ret (e : expr) : expr := EReturn [] call_site (Some e).
Definition semi (e : expr) : stmt := SExpr e (Some call_site).
Definition x_let (a : list attr) (n : string) (e : expr) : stmt := SLocalInit a [qi "let"; qi n; qp "="] e [] None [qp ";"].
Definition tail (e : expr) : stmt := SExpr e None.
Definition x_result : ret_ty := RetPath (xa_path ["std"; "Result"]).
Definition x_sig (n : string) (r : ret_ty) : sig := mk_sig n r [qi "fn"; qi n; qg Parenth []].
Definition x_fn (a : list attr) (n : string) (r : ret_ty) (b : list stmt) : item := IFn a [] (x_sig n r) call_site b.
Definition x_block (a : list attr) (b : list stmt) : expr := EBlock a [] call_site b.
Definition x_closure (r : ret_ty) (b : expr) : expr := EClosure [] [qp "|"; qp "|"] r b.
Definition x_mac (n : string) (l : list evaluable) : mac := Mac (xa_path [n]) Parenth call_site (flat_map vtoks l) (Some l).
Definition skip_ := xa_word ["hooq"; "skip"].
Definition skip_all_ := xa_word ["hooq"; "skip_all"].
Definition method_ (ts : list tt) : attr := xa (MList (xa_path ["hooq"; "method"]) Parenth ts call_site).

(** runs the walker; the output of an item that expands *)
Definition out_of (E : env) (f : fcore) (it : item) : item := match walk_item E (ctx_new f) it counter0 with Ok (o, _) => o | _ => it end.
Definition site_of (it : item) (i : nat) : site := nth i (item_sites [] it) (mk_site KTry [] (EVerbatim []) (EVerbatim []) call_site None).

(** proves the trail of a concrete position *)
Ltac t_plain := exists call_site, call_site; reflexivity.
Ltac t_reads := left; first
  [ eapply mn_skip; t_plain | eapply mn_skip_all; t_plain | eapply mn_method; [t_plain|apply parse_method_ok]
  | eapply mn_targets; [t_plain|cbn; repeat constructor|apply switch_ok; reflexivity] | eapply mn_tails; [t_plain|cbn; repeat constructor]
  | eapply mn_ignores; [t_plain|cbn; repeat constructor] | eapply mn_results; [t_plain|cbn; repeat constructor]
  | eapply mn_macros_on; t_plain | eapply mn_macros_off; t_plain
  | eapply mn_bind; [reflexivity|cbn; intuition discriminate] ].
Ltac t_events := lazymatch goal with
  | |- node_events _ [] _ => apply ne_nil
  | |- node_events _ (_ :: _) _ =>
      first [apply ne_foreign; [reflexivity|intros (? & ? & H & _ & Hl); inversion H; subst; cbn in Hl; lia|t_events]
            |eapply ne_hooq; [reflexivity|t_reads|t_events]]
  end.
Ltac t_trail := unfold trail; repeat first
  [ apply Forall2_nil
  | eapply Forall2_cons; [first [apply so_scope|apply so_fn|apply so_closure|apply so_macro|apply so_dead|apply so_attrs; t_events]|] ].
Ltac t_position n := exists n; split; vm_compute; reflexivity.

(** fn main() -> std::Result {
        a(b()?)?;
        #[hooq::skip] { c()?; { d()?; } }
        #[hooq::method(.warn($k))] let x = e()?;
        let f = || g()?;
        vec!(h()?);
        return Err(1);
        Ok(i()?)
    } *)
Definition x_main : item :=
  x_fn [xa_word ["inline"]] "main" x_result
    [semi (x_try (x_call "a" [x_try (x_call "b" [])]));
     semi (x_try_a [skip_] (x_call "c" [x_block [] [semi (x_try (x_call "d" []))]]));
     x_let [method_ [qp "."; qi "warn"; qg Parenth [qp "$"; qi "k"]]] "x" (x_try (x_call "e" []));
     x_let [] "f" (x_closure RetNone (x_try (x_call "g" [])));
     Syntax.SMacro [] (x_mac "vec" [VExpr (x_try (x_call "h" [])) []]) [qp ";"];
     semi (x_ret (x_call "Err" [ELit [] (LUsize 1) call_site]));
     tail (x_call "Ok" [x_try (x_call "i" [])])].
Definition x_out : item := Eval vm_compute in out_of x_env x_core x_main.
Lemma x_expands : expands x_env x_core x_main x_out.
Proof. eexists. vm_compute. reflexivity. Qed.
Lemma x_source : source x_main.
Proof. reflexivity. Qed.

(** feature consume-question: [.log()!] *)
Definition xc_env : env := mk_env (mk_attr_env true (ae_flavor xa_env) (ae_mnv xa_env)) (ev_parse x_env) (ev_str x_env).
Definition xc_core : fcore :=
  {| fl_traits := []; fl_method := Insert call_site [qi "log"; qg Parenth []] true; fl_targets := mk_switch true true true;
     fl_tails := ["Err"]; fl_ignores := ["Ok"]; fl_results := ["Result"]; fl_macros := true; fl_bindings := [] |}.
(** fn main() { #[allow(unused)] a()?; #[hooq::skip] b()?; } *)
Definition xc_main : item :=
  x_fn [] "main" RetNone [semi (x_try_a [xa (MList (xa_path ["allow"]) Parenth [qi "unused"] call_site)] (x_call "a" [])); semi (x_try_a [skip_] (x_call "b" []))].
Definition xc_out : item := Eval vm_compute in out_of xc_env xc_core xc_main.
Lemma xc_expands : expands xc_env xc_core xc_main xc_out.
Proof. eexists. vm_compute. reflexivity. Qed.

(** is an identifier anywhere in the tokens? *)
Fixpoint tt_mentions (s : string) (t : tt) : bool :=
  match t with
  | TIdent x _ => String.eqb s x
  | TGroup _ ts _ => (fix go l := match l with [] => false | t :: r => tt_mentions s t || go r end) ts
  | _ => false
  end.
Definition mentions (s : string) (ts : list tt) : bool := existsb (tt_mentions s) ts.

(** the consumed [?] of [return a()?] is rendered as [Err(1)]: [#[hooq::method(Err(1)!)]] in a function without return type *)
Definition xd_env : env := mk_env (ev_attr xc_env) (fun ts => match ts with [TIdent "Err" _; TGroup Parenth _ _] => Some (x_call "Err" []) | _ => Some (EVerbatim ts) end) (ev_str x_env).
Definition xd_core : fcore :=
  {| fl_traits := []; fl_method := Replace [qi "Err"; qg Parenth []] true; fl_targets := mk_switch true true true;
     fl_tails := ["Err"]; fl_ignores := ["Ok"]; fl_results := ["Result"]; fl_macros := true; fl_bindings := [] |}.
Definition xd_main : item := x_fn [] "main" RetNone [semi (x_ret (x_try (x_call "a" []))); tail (x_try (x_call "b" []))].
Definition xd_out : item := Eval vm_compute in out_of xd_env xd_core xd_main.
Lemma xd_expands : expands xd_env xd_core xd_main xd_out.
Proof. eexists. vm_compute. reflexivity. Qed.

(** fn main() -> std::Result { return Err(1) } *)
Definition xr_main : item := x_fn [] "main" x_result [tail (x_ret (x_call "Err" [ELit [] (LUsize 1) call_site]))].
Definition xr_out : item := Eval vm_compute in out_of x_env x_core xr_main.
Lemma xr_expands : expands x_env x_core xr_main xr_out.
Proof. eexists. vm_compute. reflexivity. Qed.

(** fn main() -> std::Result { return a + b; } *)
Definition xp_main : item := x_fn [] "main" x_result [semi (x_ret (EBinary [] (x_name "a") [qp "+"] (x_name "b")))].
Definition xp_out : item := Eval vm_compute in out_of x_env x_core xp_main.
Lemma xp_expands : expands x_env x_core xp_main xp_out.
Proof. eexists. vm_compute. reflexivity. Qed.
