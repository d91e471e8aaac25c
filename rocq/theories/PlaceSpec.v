(** Specification of the place of a target: where it begins in the source file.  *)
From Coq Require Import String Ascii Bool Arith List.
From Verif Require Import Base Tokens Method Paths Context Flavor Attrs Syntax Render Walker AttrSpec SiteSpec ProgSpec.
Import ListNotations.
Open Scope string_scope.
Open Scope list_scope.

(** where a stream of tokens begins *)
Definition start (ts : list tt) : option span := option_map tt_span (hd_error ts).

(** the expressions that begin where [e] begins: [e], its first operand, the first operand of that, and so on *)
Definition after (kw : list tt) (l : list expr) : list expr := match kw with [] => l | _ :: _ => [] end.
Fixpoint edge (e : expr) : list expr :=
  e :: match e with
       | EAssign _ l _ _ | EAwait _ l _ | EBinary _ l _ _ | ECall _ l _ _ _ | ECast _ l _ | EField _ l _ | EIndex _ l _ _ | EMethodCall _ l _ _ _ _
       | ETry _ l _ | EHook _ l _ | ERange _ (Some l) _ _ => edge l
       | EClosure _ kw _ l | EForLoop _ kw l _ _ | EIf _ kw l _ _ _ _ | ELet _ kw l | EMatch _ kw l _ _ | ERawAddr _ kw l | EReference _ kw l
       | EUnary _ kw l | EWhile _ kw l _ _ | EBreak _ kw (Some l) | EYield _ kw (Some l) | ERange _ None kw (Some l) => after kw (edge l)
       | _ => []
       end.

(** a hook on [e] appends to it, and takes no attribute away; no hooq attribute is left on [e] *)
Definition keeps_start (e : expr) : Prop :=
  match e with
  | EHook h _ _ => (exists dot ts b, fval (cx_method (h_ctx h)) = Insert dot ts b) /\ match h_consumed h with Some (a, _) => a = [] | None => True end
  | EVerbatim _ => True
  | _ => foreign (attrs_of e) = attrs_of e
  end.
(** an expression that was parsed is printed from its first token on *)
Definition prints_start (E : env) : Prop := forall ts r, ev_parse E ts = Some r -> start (etoks r) = start ts.
