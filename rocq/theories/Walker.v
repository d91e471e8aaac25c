(** The walker (walker/mod.rs, walker/hook_expr.rs, walker/walk_macro.rs).  *)
From Coq Require Import String Ascii Bool Arith List.
From Verif Require Import Base Tokens Method Paths Context Flavor Attrs Syntax Render.
Import ListNotations.
Open Scope string_scope.
Open Scope list_scope.
Open Scope monad_scope.

(** walker/mod.rs 23-28 *)
Inductive tail_kind : Type := FnBlockTail | BlockTail | NotTarget.
(** walker/mod.rs 31-36 *)
Definition is_target (t : tail_kind) : bool := match t with NotTarget => false | _ => true end.
Definition is_fn_tail (t : tail_kind) : bool := match t with FnBlockTail => true | _ => false end.

(** walker/mod.rs 45-47: the path of a call whose callee is a path *)
Definition call_path (e : expr) : option path :=
  match seen e with
  | ECall _ f _ _ _ => match seen f with EPath _ p => Some p | _ => None end
  | _ => None
  end.
(** walker/mod.rs 44-58: (is_target_call, is_not_target_call) *)
Definition target_call_check (c : ctx) (e : expr) : bool * bool :=
  match call_path e with
  | Some p => (path_is_hook_call_like_err c p, path_is_not_hook_call_like_ok c p)
  | None => (false, false)
  end.

(** everything the walker gets from outside *)
Record env : Type := mk_env {
  ev_attr : attr_env;
  ev_parse : list tt -> option expr;      (* parse_quote! at render/mod.rs 49, 76: [None] is the panic of parse_quote! *)
  ev_str : list tt -> string              (* TokenStream::to_string *) }.

(** the last index gets [tk], the others [NotTarget] (walker/mod.rs 182-190 and all copies of that loop) *)
Definition pos_kind (tk : tail_kind) (len i : nat) : tail_kind :=
  if Nat.eqb i (len - 1) then tk else NotTarget.

Section Walker.
  Variable E : env.

  Definition handle (a : list attr) (c : ctx) : M (list attr * bool * ctx) := lift (handle_inert_attrs (ev_attr E) a c).

  (** render/mod.rs 22-87: parse the rendered tokens; the second component is [exc] *)
  Definition render_expr (c : ctx) (k : kind) (count : nat) (source : list tt) (e : expr) (q : span) : res (expr * bool) :=
    bindR (render_toks (ev_str E) c k count source (etoks e) q) (fun ts =>
    match ev_parse E ts with
    | None => Panic "parse_quote!"
    | Some r => Ok (EHook (mk_hook k count q source c None) e r, m_exc (fval (cx_method c)))
    end).

  (** hook_expr.rs 6-28: the new expression and [exc] *)
  Definition hook_expr (apply : bool) (e : expr) (source : list tt) (k : kind) (q : span) (c : ctx) : M (expr * bool) :=
    fun cnt =>
      if negb apply then Ok ((e, false), cnt)
      else let cnt' := count_up k cnt in
           if negb (is_hook_target c k) then Ok ((e, false), cnt')
           else match render_expr c k (get_count k cnt') source e q with
                | Ok r => Ok (r, cnt')
                | Err x => Err x
                | Panic m => Panic m
                end.

  (** ghost: note in the provenance that the [?] was removed *)
  Definition mark_consumed (a : list attr) (sp : span) (e : expr) : expr :=
    match e with
    | EHook h o r => EHook (mk_hook (h_kind h) (h_count h) (h_span h) (h_source h) (h_ctx h) (Some (a, sp))) o r
    | _ => e
    end.

  (** [walk ov c e]: [ov = Some a'] when the attributes of [e] have already been replaced by [a'] in place *)
  Definition attrs_now (ov : option (list attr)) (a : list attr) : list attr :=
    match ov with Some a' => a' | None => a end.

  (** walker/mod.rs 60-110.  [walk] walks [e] after its attributes were replaced.  *)
  Definition handle_tail_with (walk : option (list attr) -> ctx -> M expr) (e : expr) (c : ctx) (tk : tail_kind) : M expr :=
    match get_attrs e with
    | None => ret e
    | Some a =>
        '(a', skipped, c') <- handle a c;
        let source := etoks (set_attrs a' e) in
        e' <- walk (Some a') c';
        if negb (is_target tk) then ret e'
        else let '(is_t, is_nt) := target_call_check c' e' in
             if is_t || return_type_is_result c' && is_fn_tail tk && negb is_nt
             then '(e'', _) <- hook_expr (negb skipped) e' source TailExpr (ts_span (etoks e')) c'; ret e''
             else ret e'
    end.

  (** walker/mod.rs 396-1047.  Each case: the attributes are handled, then the parts are walked in order. *)
  Fixpoint walk_expr (ov : option (list attr)) (c : ctx) (e : expr) {struct e} : M expr :=
    match e with
    | ETry a e0 sp =>                                                                  (* 399-439 *)
        '(a', skipped, c') <- handle (attrs_now ov a) c;
        let source := etoks (ETry a' e0 sp) in
        e1 <- walk_expr None c' e0;
        '(e2, exc) <- hook_expr (negb skipped) e1 source Question sp c';
        ret (if exc then mark_consumed a' sp e2 else ETry a' e2 sp)
    | EReturn a sp o =>                                                                (* 440-472 *)
        '(a', skipped, c') <- handle (attrs_now ov a) c;
        let source := etoks (EReturn a' sp o) in
        match o with
        | None => ret (EReturn a' sp None)
        | Some e0 =>
            e1 <- walk_expr None c' e0;
            let '(is_t, is_nt) := target_call_check c' e1 in
            if is_t || return_type_is_result c' && negb is_nt
            then '(e2, _) <- hook_expr (negb skipped) e1 source Return sp c'; ret (EReturn a' sp (Some e2))
            else ret (EReturn a' sp (Some e1))
        end
    | EArray a sp es cs =>                                                             (* 475-488 *)
        '(a', _, c') <- handle (attrs_now ov a) c;
        es' <- mapM (walk_expr None c') es; ret (EArray a' sp es' cs)
    | EAssign a l q r =>                                                               (* 489-496 *)
        '(a', _, c') <- handle (attrs_now ov a) c;
        r' <- walk_expr None c' r; ret (EAssign a' l q r')
    | EAsync a kw sp b =>                                                              (* 497-523 *)
        '(a', _, c') <- handle (attrs_now ov a) c;
        b' <- mapiM (fun i s => walk_stmt (pos_kind BlockTail (length b) i) (for_sub_scope c') s) 0 b;
        ret (EAsync a' kw sp b')
    | EAwait a e0 k =>                                                                 (* 524-531 *)
        '(a', _, c') <- handle (attrs_now ov a) c;
        e1 <- walk_expr None c' e0; ret (EAwait a' e1 k)
    | EBinary a l o r =>                                                               (* 532-540 *)
        '(a', _, c') <- handle (attrs_now ov a) c;
        l' <- walk_expr None c' l; r' <- walk_expr None c' r; ret (EBinary a' l' o r')
    | EBlock a lbl sp b =>                                                             (* 541-567 *)
        '(a', _, c') <- handle (attrs_now ov a) c;
        b' <- mapiM (fun i s => walk_stmt (pos_kind BlockTail (length b) i) (for_sub_scope c') s) 0 b;
        ret (EBlock a' lbl sp b')
    | EBreak a kw o =>                                                                 (* 568-579 *)
        '(a', _, c') <- handle (attrs_now ov a) c;
        o' <- optM (walk_expr None c') o; ret (EBreak a' kw o')
    | ECall a f sp es cs =>                                                            (* 580-594 *)
        '(a', _, c') <- handle (attrs_now ov a) c;
        f' <- walk_expr None c' f; es' <- mapM (walk_expr None c') es; ret (ECall a' f' sp es' cs)
    | ECast a e0 ty =>                                                                 (* 595-602 *)
        '(a', _, c') <- handle (attrs_now ov a) c;
        e1 <- walk_expr None c' e0; ret (ECast a' e1 ty)
    | EClosure a hd out body =>                                                        (* 603-644 *)
        '(a', _, c1) <- handle (attrs_now ov a) c;
        let c2 := update_fn_info c1
                    (closure_info_new out (etoks (EClosure a' hd out (EBlock [] [] call_site []))) (cx_fn c1)) in
        body' <- match body with
                 | EBlock ba lbl bsp b =>
                     '(ba', _, c3) <- handle ba c2;
                     b' <- mapiM (fun i s => walk_stmt (pos_kind FnBlockTail (length b) i) (for_sub_scope c3) s) 0 b;
                     ret (EBlock ba' lbl bsp b')
                 | _ => handle_tail_with (fun ov' c' => walk_expr ov' c' body) body c2 FnBlockTail
                 end;
        ret (EClosure a' hd out body')
    | EConst a kw sp b =>                                                              (* 645-671 *)
        '(a', _, c') <- handle (attrs_now ov a) c;
        b' <- mapiM (fun i s => walk_stmt (pos_kind BlockTail (length b) i) (for_sub_scope c') s) 0 b;
        ret (EConst a' kw sp b')
    | EField a e0 m =>                                                                 (* 672-679 *)
        '(a', _, c') <- handle (attrs_now ov a) c;
        e1 <- walk_expr None c' e0; ret (EField a' e1 m)
    | EForLoop a kw e0 sp b =>                                                         (* 680-708 *)
        '(a', _, c') <- handle (attrs_now ov a) c;
        e1 <- walk_expr None c' e0;
        b' <- mapiM (fun i s => walk_stmt (pos_kind BlockTail (length b) i) (for_sub_scope c') s) 0 b;
        ret (EForLoop a' kw e1 sp b')
    | EGroup a sp e0 =>                                                                (* 709-716 *)
        '(a', _, c') <- handle (attrs_now ov a) c;
        e1 <- walk_expr None c' e0; ret (EGroup a' sp e1)
    | EIf a kw cond sp b ek el =>                                                      (* 717-750 *)
        '(a', _, c') <- handle (attrs_now ov a) c;
        cond' <- walk_expr None c' cond;
        b' <- mapiM (fun i s => walk_stmt (pos_kind BlockTail (length b) i) (for_sub_scope c') s) 0 b;
        el' <- optM (walk_expr None (for_sub_scope c')) el;
        ret (EIf a' kw cond' sp b' ek el')
    | EIndex a e0 sp i =>                                                              (* 751-759 *)
        '(a', _, c') <- handle (attrs_now ov a) c;
        e1 <- walk_expr None c' e0; i' <- walk_expr None c' i; ret (EIndex a' e1 sp i')
    | ELet a kw e0 =>                                                                  (* 760-767 *)
        '(a', _, c') <- handle (attrs_now ov a) c;
        e1 <- walk_expr None c' e0; ret (ELet a' kw e1)
    | ELoop a kw sp b =>                                                               (* 768-794 *)
        '(a', _, c') <- handle (attrs_now ov a) c;
        b' <- mapiM (fun i s => walk_stmt (pos_kind BlockTail (length b) i) (for_sub_scope c') s) 0 b;
        ret (ELoop a' kw sp b')
    | EMatch a kw e0 sp arms =>                                                        (* 795-827 *)
        '(a', _, c') <- handle (attrs_now ov a) c;
        e1 <- walk_expr None c' e0;
        arms' <- mapM (walk_arm (for_sub_scope c')) arms;
        ret (EMatch a' kw e1 sp arms')
    | EMethodCall a e0 m sp es cs =>                                                   (* 828-842 *)
        '(a', _, c') <- handle (attrs_now ov a) c;
        e1 <- walk_expr None c' e0; es' <- mapM (walk_expr None c') es; ret (EMethodCall a' e1 m sp es' cs)
    | EParen a sp e0 =>                                                                (* 843-850 *)
        '(a', _, c') <- handle (attrs_now ov a) c;
        e1 <- walk_expr None c' e0; ret (EParen a' sp e1)
    | ERange a s lim t =>                                                              (* 851-865 *)
        '(a', _, c') <- handle (attrs_now ov a) c;
        s' <- optM (walk_expr None c') s; t' <- optM (walk_expr None c') t; ret (ERange a' s' lim t')
    | ERawAddr a kw e0 =>                                                              (* 866-873 *)
        '(a', _, c') <- handle (attrs_now ov a) c;
        e1 <- walk_expr None c' e0; ret (ERawAddr a' kw e1)
    | EReference a kw e0 =>                                                            (* 874-881 *)
        '(a', _, c') <- handle (attrs_now ov a) c;
        e1 <- walk_expr None c' e0; ret (EReference a' kw e1)
    | ERepeat a sp e0 semi len =>                                                      (* 882-890 *)
        '(a', _, c') <- handle (attrs_now ov a) c;
        e1 <- walk_expr None c' e0; len' <- walk_expr None c' len; ret (ERepeat a' sp e1 semi len')
    | EStruct a p sp fs cs dots rest =>                                                (* 891-914 *)
        '(a', _, c') <- handle (attrs_now ov a) c;
        fs' <- mapM (walk_field c') fs;
        rest' <- optM (walk_expr None c') rest;
        ret (EStruct a' p sp fs' cs dots rest')
    | ETryBlock a kw sp b =>                                                           (* 915-943 *)
        '(a', _, c') <- handle (attrs_now ov a) c;
        b' <- mapiM (fun i s => walk_stmt (pos_kind BlockTail (length b) i) (for_sub_scope c') s) 0 b;
        ret (ETryBlock a' kw sp b')
    | ETuple a sp es cs =>                                                             (* 944-957 *)
        '(a', _, c') <- handle (attrs_now ov a) c;
        es' <- mapM (walk_expr None c') es; ret (ETuple a' sp es' cs)
    | EUnary a o e0 =>                                                                 (* 958-965 *)
        '(a', _, c') <- handle (attrs_now ov a) c;
        e1 <- walk_expr None c' e0; ret (EUnary a' o e1)
    | EUnsafe a kw sp b =>                                                             (* 966-992 *)
        '(a', _, c') <- handle (attrs_now ov a) c;
        b' <- mapiM (fun i s => walk_stmt (pos_kind BlockTail (length b) i) (for_sub_scope c') s) 0 b;
        ret (EUnsafe a' kw sp b')
    | EWhile a kw cond sp b =>                                                         (* 993-1021 *)
        '(a', _, c') <- handle (attrs_now ov a) c;
        cond' <- walk_expr None c' cond;
        b' <- mapiM (fun i s => walk_stmt (pos_kind BlockTail (length b) i) (for_sub_scope c') s) 0 b;
        ret (EWhile a' kw cond' sp b')
    | EYield a kw o =>                                                                 (* 1022-1035 *)
        '(a', _, c') <- handle (attrs_now ov a) c;
        o' <- optM (walk_expr None c') o; ret (EYield a' kw o')
    | EMacro a m =>                                                                    (* 1037 *)
        '(a', _, c') <- handle (attrs_now ov a) c;
        m' <- walk_mac c' m; ret (EMacro a' m')
    | EContinue a kw => ret (EContinue (attrs_now ov a) kw)                            (* 1040-1045 *)
    | EInfer a kw => ret (EInfer (attrs_now ov a) kw)
    | ELit a l sp => ret (ELit (attrs_now ov a) l sp)
    | EPath a p => ret (EPath (attrs_now ov a) p)
    | EVerbatim ts => ret (EVerbatim ts)
    | EHook h o r => ret (EHook h o r)   (* not in source programs *)
    end
  (** walker/mod.rs 112-155 *)
  with walk_stmt (tk : tail_kind) (c : ctx) (s : stmt) {struct s} : M stmt :=
    match s with
    | SLocalInit a pat e ek el semi =>                                                 (* 118-134 *)
        '(a', _, c') <- handle a c;
        e' <- walk_expr None c' e;
        el' <- optM (walk_expr None c') el;
        ret (SLocalInit a' pat e' ek el' semi)
    | SItem i => i' <- walk_item c i; ret (SItem i')                                   (* 135 *)
    | SExpr e semi =>                                                                  (* 141-144 *)
        match semi with
        | None => if is_target tk
                  then e' <- handle_tail_with (fun ov c' => walk_expr ov c' e) e c tk; ret (SExpr e' None)
                  else e' <- walk_expr None c e; ret (SExpr e' None)
        | Some _ => e' <- walk_expr None c e; ret (SExpr e' semi)
        end
    | SMacro a m semi =>                                                               (* 146-150 *)
        '(a', _, c') <- handle a c; m' <- walk_mac c' m; ret (SMacro a' m' semi)
    | SLocal a pat semi => ret (SLocal a pat semi)                                     (* 153 *)
    end
  (** walker/mod.rs 163-394 *)
  with walk_item (c : ctx) (i : item) {struct i} : M item :=
    match i with
    | IFn a vis s sp b =>                                                              (* 165-194 *)
        '(a', _, c1) <- handle a c;
        let c2 := for_sub_scope (update_fn_info c1 (FnInfo s)) in
        b' <- mapiM (fun j st => walk_stmt (pos_kind FnBlockTail (length b) j) c2 st) 0 b;
        ret (IFn a' vis s sp b')
    | IImpl a hd sp its =>                                                             (* 195-259 *)
        '(a', _, c') <- handle a c;
        its' <- mapM (walk_impl_item c') its; ret (IImpl a' hd sp its')
    | IMod a hd sp its =>                                                              (* 260-276 *)
        '(a', _, c') <- handle a c;
        its' <- mapM (walk_item c') its; ret (IMod a' hd sp its')
    | IConst a hd e semi =>                                                            (* 278-286 *)
        '(a', _, c') <- handle a c; e' <- walk_expr None c' e; ret (IConst a' hd e' semi)
    | IStatic a hd e semi =>
        '(a', _, c') <- handle a c; e' <- walk_expr None c' e; ret (IStatic a' hd e' semi)
    | ITrait a hd sp its =>                                                            (* 288-362 *)
        '(a', _, c') <- handle a c;
        its' <- mapM (walk_trait_item c') its; ret (ITrait a' hd sp its')
    | IMacro a name m semi =>                                                          (* 364-378 *)
        match name with
        | Some n => ret (IMacro a (Some n) m semi)
        | None => '(a', _, c') <- handle a c; m' <- walk_mac c' m; ret (IMacro a' None m' semi)
        end
    | IOther a ts => ret (IOther a ts)                                                 (* 380-392 *)
    end
  (** walker/mod.rs 204-255 *)
  with walk_impl_item (c : ctx) (i : impl_item) {struct i} : M impl_item :=
    match i with
    | IIFn a vis s sp b =>                                                             (* 206-235 *)
        '(a', _, c1) <- handle a c;
        let c2 := for_sub_scope (update_fn_info c1 (FnInfo s)) in
        b' <- mapiM (fun j st => walk_stmt (pos_kind FnBlockTail (length b) j) c2 st) 0 b;
        ret (IIFn a' vis s sp b')
    | IIConst a hd e semi =>                                                           (* 237-244 *)
        '(a', _, c') <- handle a c; e' <- walk_expr None c' e; ret (IIConst a' hd e' semi)
    | IIMacro a m semi =>                                                              (* 246-250 *)
        '(a', _, c') <- handle a c; m' <- walk_mac c' m; ret (IIMacro a' m' semi)
    | IIOther a ts => ret (IIOther a ts)                                               (* 253 *)
    end
  (** walker/mod.rs 297-358 *)
  with walk_trait_item (c : ctx) (i : trait_item) {struct i} : M trait_item :=
    match i with
    | TIConst a hd e semi =>                                                           (* 299-310 *)
        '(a', _, c') <- handle a c; e' <- walk_expr None c' e; ret (TIConst a' hd e' semi)
    | TIFn a s sp b =>                                                                 (* 311-343 *)
        '(a', _, c1) <- handle a c;
        let c2 := for_sub_scope (update_fn_info c1 (FnInfo s)) in
        b' <- mapiM (fun j st => walk_stmt (pos_kind FnBlockTail (length b) j) c2 st) 0 b;
        ret (TIFn a' s sp b')
    | TIMacro a m semi =>                                                              (* 345-349 *)
        '(a', _, c') <- handle a c; m' <- walk_mac c' m; ret (TIMacro a' m' semi)
    | TIOther a ts => ret (TIOther a ts)                                               (* 352-356 *)
    end
  (** walker/mod.rs 808-823; [c] is already the context of the sub scope (803) *)
  with walk_arm (c : ctx) (r : arm) {struct r} : M arm :=
    match r with
    | Arm a pat ik guard arrow body comma =>
        guard' <- optM (walk_expr None c) guard;
        body' <- match body with
                 | EBlock _ _ _ _ => walk_expr None c body
                 | _ => handle_tail_with (fun ov c' => walk_expr ov c' body) body c BlockTail
                 end;
        ret (Arm a pat ik guard' arrow body' comma)
    end
  (** walker/mod.rs 900-907 *)
  with walk_field (c : ctx) (f : fieldv) {struct f} : M fieldv :=
    match f with
    | FieldV a m colon e =>
        '(a', _, c') <- handle a c; e' <- walk_expr None c' e; ret (FieldV a' m colon e')
    end
  (** walk_macro.rs 12-34 after the attributes, and 36-82 *)
  with walk_mac (c : ctx) (m : mac) {struct m} : M mac :=
    match m with
    | Mac p d sp ts view =>
        if negb (hook_in_macros c) then ret (Mac p d sp ts view)
        else match view with
             | None => ret (Mac p d sp ts None)
             | Some l => l' <- mapM (walk_evaluable c) l; ret (Mac p d sp (flat_map vtoks l') (Some l'))
             end
    end
  (** walk_macro.rs 47-72 *)
  with walk_evaluable (c : ctx) (v : evaluable) {struct v} : M evaluable :=
    match v with
    | VFile fa its p => its' <- mapM (walk_item c) its; ret (VFile fa its' p)
    | VItem i p => i' <- walk_item c i; ret (VItem i' p)
    | VExpr e p => e' <- walk_expr None c e; ret (VExpr e' p)
    | VStmt s p => s' <- walk_stmt NotTarget c s; ret (VStmt s' p)
    end.
End Walker.
