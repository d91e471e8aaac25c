(** Induction principle for the mutual, nested syntax (generated from Syntax.v).  *)
From Coq Require Import List.
From Verif Require Import Base Tokens Method Paths Context Syntax.
Import ListNotations.

Definition optP {A} (P : A -> Prop) (o : option A) : Prop := match o with Some x => P x | None => True end.
Definition list_all {A} (P : A -> Prop) (f : forall x, P x) : forall l, Forall P l :=
  fix go l := match l with [] => Forall_nil P | x :: r => Forall_cons x (f x) (go r) end.
Definition opt_all {A} (P : A -> Prop) (f : forall x, P x) (o : option A) : optP P o :=
  match o with Some x => f x | None => I end.

Section Ind.
  Variable P_expr : expr -> Prop.
  Variable P_stmt : stmt -> Prop.
  Variable P_item : item -> Prop.
  Variable P_impl_item : impl_item -> Prop.
  Variable P_trait_item : trait_item -> Prop.
  Variable P_arm : arm -> Prop.
  Variable P_fieldv : fieldv -> Prop.
  Variable P_mac : mac -> Prop.
  Variable P_evaluable : evaluable -> Prop.
  Variable H_EArray : forall a sp es cs, Forall P_expr es -> P_expr (EArray a sp es cs).
  Variable H_EAssign : forall a l eq r, P_expr l -> P_expr r -> P_expr (EAssign a l eq r).
  Variable H_EAsync : forall a kw sp b, Forall P_stmt b -> P_expr (EAsync a kw sp b).
  Variable H_EAwait : forall a e k, P_expr e -> P_expr (EAwait a e k).
  Variable H_EBinary : forall a l op r, P_expr l -> P_expr r -> P_expr (EBinary a l op r).
  Variable H_EBlock : forall a lbl sp b, Forall P_stmt b -> P_expr (EBlock a lbl sp b).
  Variable H_EBreak : forall a kw e, optP P_expr e -> P_expr (EBreak a kw e).
  Variable H_ECall : forall a f sp es cs, P_expr f -> Forall P_expr es -> P_expr (ECall a f sp es cs).
  Variable H_ECast : forall a e ty, P_expr e -> P_expr (ECast a e ty).
  Variable H_EClosure : forall a hd out body, P_expr body -> P_expr (EClosure a hd out body).
  Variable H_EConst : forall a kw sp b, Forall P_stmt b -> P_expr (EConst a kw sp b).
  Variable H_EContinue : forall a kw, P_expr (EContinue a kw).
  Variable H_EField : forall a e m, P_expr e -> P_expr (EField a e m).
  Variable H_EForLoop : forall a kw e sp b, P_expr e -> Forall P_stmt b -> P_expr (EForLoop a kw e sp b).
  Variable H_EGroup : forall a sp e, P_expr e -> P_expr (EGroup a sp e).
  Variable H_EIf : forall a kw c sp b ek el, P_expr c -> Forall P_stmt b -> optP P_expr el -> P_expr (EIf a kw c sp b ek el).
  Variable H_EIndex : forall a e sp i, P_expr e -> P_expr i -> P_expr (EIndex a e sp i).
  Variable H_EInfer : forall a kw, P_expr (EInfer a kw).
  Variable H_ELet : forall a kw e, P_expr e -> P_expr (ELet a kw e).
  Variable H_ELit : forall a l sp, P_expr (ELit a l sp).
  Variable H_ELoop : forall a kw sp b, Forall P_stmt b -> P_expr (ELoop a kw sp b).
  Variable H_EMacro : forall a m, P_mac m -> P_expr (EMacro a m).
  Variable H_EMatch : forall a kw e sp arms, P_expr e -> Forall P_arm arms -> P_expr (EMatch a kw e sp arms).
  Variable H_EMethodCall : forall a e m sp es cs, P_expr e -> Forall P_expr es -> P_expr (EMethodCall a e m sp es cs).
  Variable H_EParen : forall a sp e, P_expr e -> P_expr (EParen a sp e).
  Variable H_EPath : forall a p, P_expr (EPath a p).
  Variable H_ERange : forall a s lim t, optP P_expr s -> optP P_expr t -> P_expr (ERange a s lim t).
  Variable H_ERawAddr : forall a kw e, P_expr e -> P_expr (ERawAddr a kw e).
  Variable H_EReference : forall a kw e, P_expr e -> P_expr (EReference a kw e).
  Variable H_ERepeat : forall a sp e semi len, P_expr e -> P_expr len -> P_expr (ERepeat a sp e semi len).
  Variable H_EReturn : forall a sp e, optP P_expr e -> P_expr (EReturn a sp e).
  Variable H_EStruct : forall a p sp fs cs dots rest, Forall P_fieldv fs -> optP P_expr rest -> P_expr (EStruct a p sp fs cs dots rest).
  Variable H_ETry : forall a e sp, P_expr e -> P_expr (ETry a e sp).
  Variable H_ETryBlock : forall a kw sp b, Forall P_stmt b -> P_expr (ETryBlock a kw sp b).
  Variable H_ETuple : forall a sp es cs, Forall P_expr es -> P_expr (ETuple a sp es cs).
  Variable H_EUnary : forall a op e, P_expr e -> P_expr (EUnary a op e).
  Variable H_EUnsafe : forall a kw sp b, Forall P_stmt b -> P_expr (EUnsafe a kw sp b).
  Variable H_EWhile : forall a kw c sp b, P_expr c -> Forall P_stmt b -> P_expr (EWhile a kw c sp b).
  Variable H_EYield : forall a kw e, optP P_expr e -> P_expr (EYield a kw e).
  Variable H_EVerbatim : forall ts, P_expr (EVerbatim ts).
  Variable H_EHook : forall h orig res, P_expr orig -> P_expr res -> P_expr (EHook h orig res).
  Variable H_SLocal : forall a pat semi, P_stmt (SLocal a pat semi).
  Variable H_SLocalInit : forall a pat e ek el semi, P_expr e -> optP P_expr el -> P_stmt (SLocalInit a pat e ek el semi).
  Variable H_SItem : forall i, P_item i -> P_stmt (SItem i).
  Variable H_SExpr : forall e semi, P_expr e -> P_stmt (SExpr e semi).
  Variable H_SMacro : forall a m semi, P_mac m -> P_stmt (SMacro a m semi).
  Variable H_IFn : forall a vis s sp b, Forall P_stmt b -> P_item (IFn a vis s sp b).
  Variable H_IImpl : forall a hd sp its, Forall P_impl_item its -> P_item (IImpl a hd sp its).
  Variable H_IMod : forall a hd sp its, Forall P_item its -> P_item (IMod a hd sp its).
  Variable H_IConst : forall a hd e semi, P_expr e -> P_item (IConst a hd e semi).
  Variable H_IStatic : forall a hd e semi, P_expr e -> P_item (IStatic a hd e semi).
  Variable H_ITrait : forall a hd sp its, Forall P_trait_item its -> P_item (ITrait a hd sp its).
  Variable H_IMacro : forall a name m semi, P_mac m -> P_item (IMacro a name m semi).
  Variable H_IOther : forall a ts, P_item (IOther a ts).
  Variable H_IIFn : forall a vis s sp b, Forall P_stmt b -> P_impl_item (IIFn a vis s sp b).
  Variable H_IIConst : forall a hd e semi, P_expr e -> P_impl_item (IIConst a hd e semi).
  Variable H_IIMacro : forall a m semi, P_mac m -> P_impl_item (IIMacro a m semi).
  Variable H_IIOther : forall a ts, P_impl_item (IIOther a ts).
  Variable H_TIConst : forall a hd e semi, P_expr e -> P_trait_item (TIConst a hd e semi).
  Variable H_TIFn : forall a s sp b, Forall P_stmt b -> P_trait_item (TIFn a s sp b).
  Variable H_TIMacro : forall a m semi, P_mac m -> P_trait_item (TIMacro a m semi).
  Variable H_TIOther : forall a ts, P_trait_item (TIOther a ts).
  Variable H_Arm : forall a pat ik guard arrow body comma, optP P_expr guard -> P_expr body -> P_arm (Arm a pat ik guard arrow body comma).
  Variable H_FieldV : forall a member colon e, P_expr e -> P_fieldv (FieldV a member colon e).
  Variable H_Mac : forall p d sp ts view, optP (Forall P_evaluable) view -> P_mac (Mac p d sp ts view).
  Variable H_VFile : forall fa its p, Forall P_item its -> P_evaluable (VFile fa its p).
  Variable H_VItem : forall i p, P_item i -> P_evaluable (VItem i p).
  Variable H_VExpr : forall e p, P_expr e -> P_evaluable (VExpr e p).
  Variable H_VStmt : forall s p, P_stmt s -> P_evaluable (VStmt s p).

  Fixpoint ind_expr (x : expr) : P_expr x :=
    match x with
    | EArray a sp es cs => H_EArray a sp es cs (list_all P_expr ind_expr es)
    | EAssign a l eq r => H_EAssign a l eq r (ind_expr l) (ind_expr r)
    | EAsync a kw sp b => H_EAsync a kw sp b (list_all P_stmt ind_stmt b)
    | EAwait a e k => H_EAwait a e k (ind_expr e)
    | EBinary a l op r => H_EBinary a l op r (ind_expr l) (ind_expr r)
    | EBlock a lbl sp b => H_EBlock a lbl sp b (list_all P_stmt ind_stmt b)
    | EBreak a kw e => H_EBreak a kw e (opt_all P_expr ind_expr e)
    | ECall a f sp es cs => H_ECall a f sp es cs (ind_expr f) (list_all P_expr ind_expr es)
    | ECast a e ty => H_ECast a e ty (ind_expr e)
    | EClosure a hd out body => H_EClosure a hd out body (ind_expr body)
    | EConst a kw sp b => H_EConst a kw sp b (list_all P_stmt ind_stmt b)
    | EContinue a kw => H_EContinue a kw
    | EField a e m => H_EField a e m (ind_expr e)
    | EForLoop a kw e sp b => H_EForLoop a kw e sp b (ind_expr e) (list_all P_stmt ind_stmt b)
    | EGroup a sp e => H_EGroup a sp e (ind_expr e)
    | EIf a kw c sp b ek el => H_EIf a kw c sp b ek el (ind_expr c) (list_all P_stmt ind_stmt b) (opt_all P_expr ind_expr el)
    | EIndex a e sp i => H_EIndex a e sp i (ind_expr e) (ind_expr i)
    | EInfer a kw => H_EInfer a kw
    | ELet a kw e => H_ELet a kw e (ind_expr e)
    | ELit a l sp => H_ELit a l sp
    | ELoop a kw sp b => H_ELoop a kw sp b (list_all P_stmt ind_stmt b)
    | EMacro a m => H_EMacro a m (ind_mac m)
    | EMatch a kw e sp arms => H_EMatch a kw e sp arms (ind_expr e) (list_all P_arm ind_arm arms)
    | EMethodCall a e m sp es cs => H_EMethodCall a e m sp es cs (ind_expr e) (list_all P_expr ind_expr es)
    | EParen a sp e => H_EParen a sp e (ind_expr e)
    | EPath a p => H_EPath a p
    | ERange a s lim t => H_ERange a s lim t (opt_all P_expr ind_expr s) (opt_all P_expr ind_expr t)
    | ERawAddr a kw e => H_ERawAddr a kw e (ind_expr e)
    | EReference a kw e => H_EReference a kw e (ind_expr e)
    | ERepeat a sp e semi len => H_ERepeat a sp e semi len (ind_expr e) (ind_expr len)
    | EReturn a sp e => H_EReturn a sp e (opt_all P_expr ind_expr e)
    | EStruct a p sp fs cs dots rest => H_EStruct a p sp fs cs dots rest (list_all P_fieldv ind_fieldv fs) (opt_all P_expr ind_expr rest)
    | ETry a e sp => H_ETry a e sp (ind_expr e)
    | ETryBlock a kw sp b => H_ETryBlock a kw sp b (list_all P_stmt ind_stmt b)
    | ETuple a sp es cs => H_ETuple a sp es cs (list_all P_expr ind_expr es)
    | EUnary a op e => H_EUnary a op e (ind_expr e)
    | EUnsafe a kw sp b => H_EUnsafe a kw sp b (list_all P_stmt ind_stmt b)
    | EWhile a kw c sp b => H_EWhile a kw c sp b (ind_expr c) (list_all P_stmt ind_stmt b)
    | EYield a kw e => H_EYield a kw e (opt_all P_expr ind_expr e)
    | EVerbatim ts => H_EVerbatim ts
    | EHook h orig res => H_EHook h orig res (ind_expr orig) (ind_expr res)
    end
  with ind_stmt (x : stmt) : P_stmt x :=
    match x with
    | SLocal a pat semi => H_SLocal a pat semi
    | SLocalInit a pat e ek el semi => H_SLocalInit a pat e ek el semi (ind_expr e) (opt_all P_expr ind_expr el)
    | SItem i => H_SItem i (ind_item i)
    | SExpr e semi => H_SExpr e semi (ind_expr e)
    | SMacro a m semi => H_SMacro a m semi (ind_mac m)
    end
  with ind_item (x : item) : P_item x :=
    match x with
    | IFn a vis s sp b => H_IFn a vis s sp b (list_all P_stmt ind_stmt b)
    | IImpl a hd sp its => H_IImpl a hd sp its (list_all P_impl_item ind_impl_item its)
    | IMod a hd sp its => H_IMod a hd sp its (list_all P_item ind_item its)
    | IConst a hd e semi => H_IConst a hd e semi (ind_expr e)
    | IStatic a hd e semi => H_IStatic a hd e semi (ind_expr e)
    | ITrait a hd sp its => H_ITrait a hd sp its (list_all P_trait_item ind_trait_item its)
    | IMacro a name m semi => H_IMacro a name m semi (ind_mac m)
    | IOther a ts => H_IOther a ts
    end
  with ind_impl_item (x : impl_item) : P_impl_item x :=
    match x with
    | IIFn a vis s sp b => H_IIFn a vis s sp b (list_all P_stmt ind_stmt b)
    | IIConst a hd e semi => H_IIConst a hd e semi (ind_expr e)
    | IIMacro a m semi => H_IIMacro a m semi (ind_mac m)
    | IIOther a ts => H_IIOther a ts
    end
  with ind_trait_item (x : trait_item) : P_trait_item x :=
    match x with
    | TIConst a hd e semi => H_TIConst a hd e semi (ind_expr e)
    | TIFn a s sp b => H_TIFn a s sp b (list_all P_stmt ind_stmt b)
    | TIMacro a m semi => H_TIMacro a m semi (ind_mac m)
    | TIOther a ts => H_TIOther a ts
    end
  with ind_arm (x : arm) : P_arm x :=
    match x with
    | Arm a pat ik guard arrow body comma => H_Arm a pat ik guard arrow body comma (opt_all P_expr ind_expr guard) (ind_expr body)
    end
  with ind_fieldv (x : fieldv) : P_fieldv x :=
    match x with
    | FieldV a member colon e => H_FieldV a member colon e (ind_expr e)
    end
  with ind_mac (x : mac) : P_mac x :=
    match x with
    | Mac p d sp ts view => H_Mac p d sp ts view (opt_all (Forall P_evaluable) (list_all P_evaluable ind_evaluable) view)
    end
  with ind_evaluable (x : evaluable) : P_evaluable x :=
    match x with
    | VFile fa its p => H_VFile fa its p (list_all P_item ind_item its)
    | VItem i p => H_VItem i p (ind_item i)
    | VExpr e p => H_VExpr e p (ind_expr e)
    | VStmt s p => H_VStmt s p (ind_stmt s)
    end.

  Lemma syntax_ind : (forall x, P_expr x) /\ (forall x, P_stmt x) /\ (forall x, P_item x) /\ (forall x, P_impl_item x) /\ (forall x, P_trait_item x) /\ (forall x, P_arm x) /\ (forall x, P_fieldv x) /\ (forall x, P_mac x) /\ (forall x, P_evaluable x).
  Proof. repeat split; [exact ind_expr | exact ind_stmt | exact ind_item | exact ind_impl_item | exact ind_trait_item | exact ind_arm | exact ind_fieldv | exact ind_mac | exact ind_evaluable].
  Qed.
End Ind.

(** The same with what a closure needs of its body: when it is a block, the statements of the block.  *)
Definition stmts_of (P : stmt -> Prop) (e : expr) : Prop := match e with EBlock _ _ _ b => Forall P b | _ => True end.
Section Ind2.
  Variable P_expr : expr -> Prop.
  Variable P_stmt : stmt -> Prop.
  Variable P_item : item -> Prop.
  Variable P_impl_item : impl_item -> Prop.
  Variable P_trait_item : trait_item -> Prop.
  Variable P_arm : arm -> Prop.
  Variable P_fieldv : fieldv -> Prop.
  Variable P_mac : mac -> Prop.
  Variable P_evaluable : evaluable -> Prop.
  Variable H_EArray : forall a sp es cs, Forall P_expr es -> P_expr (EArray a sp es cs).
  Variable H_EAssign : forall a l eq r, P_expr l -> P_expr r -> P_expr (EAssign a l eq r).
  Variable H_EAsync : forall a kw sp b, Forall P_stmt b -> P_expr (EAsync a kw sp b).
  Variable H_EAwait : forall a e k, P_expr e -> P_expr (EAwait a e k).
  Variable H_EBinary : forall a l op r, P_expr l -> P_expr r -> P_expr (EBinary a l op r).
  Variable H_EBlock : forall a lbl sp b, Forall P_stmt b -> P_expr (EBlock a lbl sp b).
  Variable H_EBreak : forall a kw e, optP P_expr e -> P_expr (EBreak a kw e).
  Variable H_ECall : forall a f sp es cs, P_expr f -> Forall P_expr es -> P_expr (ECall a f sp es cs).
  Variable H_ECast : forall a e ty, P_expr e -> P_expr (ECast a e ty).
  Variable H_EClosure : forall a hd out body, P_expr body -> stmts_of P_stmt body -> P_expr (EClosure a hd out body).
  Variable H_EConst : forall a kw sp b, Forall P_stmt b -> P_expr (EConst a kw sp b).
  Variable H_EContinue : forall a kw, P_expr (EContinue a kw).
  Variable H_EField : forall a e m, P_expr e -> P_expr (EField a e m).
  Variable H_EForLoop : forall a kw e sp b, P_expr e -> Forall P_stmt b -> P_expr (EForLoop a kw e sp b).
  Variable H_EGroup : forall a sp e, P_expr e -> P_expr (EGroup a sp e).
  Variable H_EIf : forall a kw c sp b ek el, P_expr c -> Forall P_stmt b -> optP P_expr el -> P_expr (EIf a kw c sp b ek el).
  Variable H_EIndex : forall a e sp i, P_expr e -> P_expr i -> P_expr (EIndex a e sp i).
  Variable H_EInfer : forall a kw, P_expr (EInfer a kw).
  Variable H_ELet : forall a kw e, P_expr e -> P_expr (ELet a kw e).
  Variable H_ELit : forall a l sp, P_expr (ELit a l sp).
  Variable H_ELoop : forall a kw sp b, Forall P_stmt b -> P_expr (ELoop a kw sp b).
  Variable H_EMacro : forall a m, P_mac m -> P_expr (EMacro a m).
  Variable H_EMatch : forall a kw e sp arms, P_expr e -> Forall P_arm arms -> P_expr (EMatch a kw e sp arms).
  Variable H_EMethodCall : forall a e m sp es cs, P_expr e -> Forall P_expr es -> P_expr (EMethodCall a e m sp es cs).
  Variable H_EParen : forall a sp e, P_expr e -> P_expr (EParen a sp e).
  Variable H_EPath : forall a p, P_expr (EPath a p).
  Variable H_ERange : forall a s lim t, optP P_expr s -> optP P_expr t -> P_expr (ERange a s lim t).
  Variable H_ERawAddr : forall a kw e, P_expr e -> P_expr (ERawAddr a kw e).
  Variable H_EReference : forall a kw e, P_expr e -> P_expr (EReference a kw e).
  Variable H_ERepeat : forall a sp e semi len, P_expr e -> P_expr len -> P_expr (ERepeat a sp e semi len).
  Variable H_EReturn : forall a sp e, optP P_expr e -> P_expr (EReturn a sp e).
  Variable H_EStruct : forall a p sp fs cs dots rest, Forall P_fieldv fs -> optP P_expr rest -> P_expr (EStruct a p sp fs cs dots rest).
  Variable H_ETry : forall a e sp, P_expr e -> P_expr (ETry a e sp).
  Variable H_ETryBlock : forall a kw sp b, Forall P_stmt b -> P_expr (ETryBlock a kw sp b).
  Variable H_ETuple : forall a sp es cs, Forall P_expr es -> P_expr (ETuple a sp es cs).
  Variable H_EUnary : forall a op e, P_expr e -> P_expr (EUnary a op e).
  Variable H_EUnsafe : forall a kw sp b, Forall P_stmt b -> P_expr (EUnsafe a kw sp b).
  Variable H_EWhile : forall a kw c sp b, P_expr c -> Forall P_stmt b -> P_expr (EWhile a kw c sp b).
  Variable H_EYield : forall a kw e, optP P_expr e -> P_expr (EYield a kw e).
  Variable H_EVerbatim : forall ts, P_expr (EVerbatim ts).
  Variable H_EHook : forall h orig res, P_expr orig -> P_expr res -> P_expr (EHook h orig res).
  Variable H_SLocal : forall a pat semi, P_stmt (SLocal a pat semi).
  Variable H_SLocalInit : forall a pat e ek el semi, P_expr e -> optP P_expr el -> P_stmt (SLocalInit a pat e ek el semi).
  Variable H_SItem : forall i, P_item i -> P_stmt (SItem i).
  Variable H_SExpr : forall e semi, P_expr e -> P_stmt (SExpr e semi).
  Variable H_SMacro : forall a m semi, P_mac m -> P_stmt (SMacro a m semi).
  Variable H_IFn : forall a vis s sp b, Forall P_stmt b -> P_item (IFn a vis s sp b).
  Variable H_IImpl : forall a hd sp its, Forall P_impl_item its -> P_item (IImpl a hd sp its).
  Variable H_IMod : forall a hd sp its, Forall P_item its -> P_item (IMod a hd sp its).
  Variable H_IConst : forall a hd e semi, P_expr e -> P_item (IConst a hd e semi).
  Variable H_IStatic : forall a hd e semi, P_expr e -> P_item (IStatic a hd e semi).
  Variable H_ITrait : forall a hd sp its, Forall P_trait_item its -> P_item (ITrait a hd sp its).
  Variable H_IMacro : forall a name m semi, P_mac m -> P_item (IMacro a name m semi).
  Variable H_IOther : forall a ts, P_item (IOther a ts).
  Variable H_IIFn : forall a vis s sp b, Forall P_stmt b -> P_impl_item (IIFn a vis s sp b).
  Variable H_IIConst : forall a hd e semi, P_expr e -> P_impl_item (IIConst a hd e semi).
  Variable H_IIMacro : forall a m semi, P_mac m -> P_impl_item (IIMacro a m semi).
  Variable H_IIOther : forall a ts, P_impl_item (IIOther a ts).
  Variable H_TIConst : forall a hd e semi, P_expr e -> P_trait_item (TIConst a hd e semi).
  Variable H_TIFn : forall a s sp b, Forall P_stmt b -> P_trait_item (TIFn a s sp b).
  Variable H_TIMacro : forall a m semi, P_mac m -> P_trait_item (TIMacro a m semi).
  Variable H_TIOther : forall a ts, P_trait_item (TIOther a ts).
  Variable H_Arm : forall a pat ik guard arrow body comma, optP P_expr guard -> P_expr body -> P_arm (Arm a pat ik guard arrow body comma).
  Variable H_FieldV : forall a member colon e, P_expr e -> P_fieldv (FieldV a member colon e).
  Variable H_Mac : forall p d sp ts view, optP (Forall P_evaluable) view -> P_mac (Mac p d sp ts view).
  Variable H_VFile : forall fa its p, Forall P_item its -> P_evaluable (VFile fa its p).
  Variable H_VItem : forall i p, P_item i -> P_evaluable (VItem i p).
  Variable H_VExpr : forall e p, P_expr e -> P_evaluable (VExpr e p).
  Variable H_VStmt : forall s p, P_stmt s -> P_evaluable (VStmt s p).

  Lemma all_fst l : Forall (fun e => P_expr e /\ stmts_of P_stmt e) l -> Forall P_expr l.
  Proof. apply Forall_impl. tauto. Qed.
  Lemma opt_fst o : optP (fun e => P_expr e /\ stmts_of P_stmt e) o -> optP P_expr o.
  Proof. destruct o; simpl; tauto. Qed.
  Lemma syntax_ind2 : (forall x, P_expr x) /\ (forall x, P_stmt x) /\ (forall x, P_item x) /\ (forall x, P_impl_item x) /\ (forall x, P_trait_item x) /\ (forall x, P_arm x) /\ (forall x, P_fieldv x) /\ (forall x, P_mac x) /\ (forall x, P_evaluable x).
  Proof.
    assert (H : (forall x, P_expr x /\ stmts_of P_stmt x) /\ (forall x, P_stmt x) /\ (forall x, P_item x) /\ (forall x, P_impl_item x) /\ (forall x, P_trait_item x) /\
                (forall x, P_arm x) /\ (forall x, P_fieldv x) /\ (forall x, P_mac x) /\ (forall x, P_evaluable x)).
    { apply syntax_ind; intros;
        repeat match goal with
        | H : Forall (fun e => P_expr e /\ stmts_of P_stmt e) _ |- _ => apply all_fst in H
        | H : optP (fun e => P_expr e /\ stmts_of P_stmt e) _ |- _ => apply opt_fst in H
        | H : P_expr _ /\ stmts_of P_stmt _ |- _ => destruct H
        | |- P_expr _ /\ stmts_of P_stmt _ => split; [|try exact I; try assumption]
        end; auto. }
    destruct H as [H1 H2]. split; [intros x; apply H1|exact H2].
  Qed.
End Ind2.
