(** Specification of moving a program to other positions: the same tokens elsewhere, as after reformatting.

    [g] says where each position goes.  [item_map g true] moves a program.  [item_map g false] moves it and forgets the texts that were put in: what is left of an
    expansion are the hooks that were applied, where, with which number and settings, and on what. *)
From Coq Require Import String Ascii Bool Arith List.
From Verif Require Import Base Tokens Method Paths Context Flavor Attrs Syntax Walker TomlStore RenderSpec AlikeSpec.
Import ListNotations.
Open Scope string_scope.
Open Scope list_scope.

Section Move.
  Variable g : span -> span.
  Fixpoint tok_map (t : tt) : tt :=
    match t with
    | TIdent s sp => TIdent s (g sp)
    | TPunct c sp => TPunct c (g sp)
    | TLit l sp => TLit l (g sp)
    | TGroup d ts sp => TGroup d (map tok_map ts) (g sp)
    end.
  Definition toks_map (ts : list tt) : list tt := map tok_map ts.
  Definition path_map (p : path) : path := mk_path (p_lead p) (map (fun s => mk_seg (seg_id s) (toks_map (seg_args s)) (mk_seg_at (g (sg_ident (seg_sp s))) (option_map (fun c => (g (fst c), g (snd c))) (sg_colons (seg_sp s))))) (p_segs p)).
  Definition value_map (v : mvalue) : mvalue := match v with VPath p => VPath (path_map p) | VStr s sp => VStr s (g sp) | VOther ts => VOther (toks_map ts) end.
  Definition meta_map (m : meta) : meta :=
    match m with
    | MPath p => MPath (path_map p)
    | MList p d ts sp => MList (path_map p) d (toks_map ts) (g sp)
    | MNameValue p v => MNameValue (path_map p) (value_map v)
    end.
  Definition attr_map (a : attr) : attr := mk_attr (at_inner a) (g (at_sp a)) (meta_map (at_meta a)).
  Definition ret_map (r : ret_ty) : ret_ty := match r with RetPath p => RetPath (path_map p) | _ => r end.
  Definition sig_map (s : sig) : sig := mk_sig (sg_name s) (ret_map (sg_out s)) (toks_map (sg_toks s)).
  (** settings *)
  Definition method_map (m : method) : method := match m with Insert dot ts x => Insert (g dot) (toks_map ts) x | Replace ts x => Replace (toks_map ts) x end.
  Definition values_map (b : smap (list tt)) : smap (list tt) := map (fun kv => (fst kv, toks_map (snd kv))) b.
  Definition info_map (i : fn_info) : fn_info := match i with FnInfo s => FnInfo (sig_map s) | ClosureInfo out ts n => ClosureInfo (ret_map out) (toks_map ts) n end.
  Fixpoint over {T} (f : T -> T) (x : field T) : field T := match x with Field v anc => Field (f v) (option_map (over f) anc) end.
  Definition ctx_map (c : ctx) : ctx :=
    mk_ctx (over method_map (cx_method c)) (cx_targets c) (cx_tails c) (cx_ignores c) (cx_results c) (cx_macros c)
           (over values_map (cx_bindings c)) (cx_skip c) (over (option_map info_map) (cx_fn c)).
  Definition hook_map (h : hook) : hook :=
    mk_hook (h_kind h) (h_count h) (g (h_span h)) (toks_map (h_source h)) (ctx_map (h_ctx h))
            (option_map (fun x => (map attr_map (fst x), g (snd x))) (h_consumed h)).
  (** a flavor *)
  Definition core_map (f : fcore) : fcore :=
    mk_fcore (map path_map (fl_traits f)) (method_map (fl_method f)) (fl_targets f) (fl_tails f) (fl_ignores f) (fl_results f) (fl_macros f) (values_map (fl_bindings f)).

  (** the tokens of an expansion after the move: the same tokens, moved, except for a literal with a position, which has the new position, and one with the printed form
      of some tokens, which has that of the moved tokens *)
  Variable E : env.
  Inductive moved : tt -> tt -> Prop :=
  | mv_ident : forall s sp, moved (TIdent s sp) (TIdent s (g sp))
  | mv_punct : forall c sp, moved (TPunct c sp) (TPunct c (g sp))
  | mv_lit : forall l sp, moved (TLit l sp) (TLit l (g sp))
  | mv_group : forall d ts ts' sp, Forall2 moved ts ts' -> moved (TGroup d ts sp) (TGroup d ts' (g sp))
  | mv_line : forall q sp, moved (TLit (LUsize (sp_line q)) sp) (TLit (LUsize (sp_line (g q))) (g sp))
  | mv_column : forall q sp, moved (TLit (LUsize (sp_col q)) sp) (TLit (LUsize (sp_col (g q))) (g sp))
  | mv_path : forall q sp, moved (TLit (LStr (sp_file q)) sp) (TLit (LStr (sp_file (g q))) (g sp))
  | mv_file : forall q a b sp, last_component (sp_file q) a -> last_component (sp_file (g q)) b -> moved (TLit (LStr a) sp) (TLit (LStr b) (g sp))
  | mv_text : forall ts sp, moved (TLit (LStr (ev_str E ts)) sp) (TLit (LStr (ev_str E (toks_map ts))) (g sp)).
  Definition shape_map (s : shape) : shape := match s with ShPath p => ShPath (path_map p) | ShCall p => ShCall (path_map p) | ShOther => ShOther end.
  (** [parse_quote!] looks neither at positions nor into such literals *)
  Definition reads_moved : Prop :=
    forall ts ts', Forall2 moved ts ts' ->
      match ev_parse E ts, ev_parse E ts' with
      | Some r, Some r' => Forall2 moved (etoks r) (etoks r') /\ shape_of r' = shape_map (shape_of r)
      | None, None => True
      | _, _ => False
      end.
  (** neither does the reader of [name = value], and the flavors have no positions in the file *)
  Definition reads_settings_moved : Prop :=
    (forall ts, ae_mnv (ev_attr E) (toks_map ts) = option_map (fun x => (path_map (fst x), toks_map (snd x))) (ae_mnv (ev_attr E) ts)) /\
    (forall l f, ae_flavor (ev_attr E) l = Ok f -> core_map f = f).
  (** neither does the reader of the paths of [trait_uses(..)] *)
  Definition reads_paths_moved (parse_paths : list tt -> option (list path)) : Prop := forall ts, parse_paths (toks_map ts) = option_map (map path_map) (parse_paths ts).
  (** nor has what is read from hooq.toml *)
  Definition reads_toml_still (te : toml_env) : Prop :=
    (forall s p, te_path te s = Some p -> path_map p = p) /\ (forall s ts, te_ts te s = Some ts -> toks_map ts = ts) /\ (forall s ts, te_expr te s = Some ts -> toks_map ts = ts).
End Move.

Fixpoint expr_map (g : span -> span) (texts : bool) (e : expr) {struct e} : expr :=
  match e with
  | EArray a sp es cs => EArray (map (attr_map g) a) (g sp) (map (expr_map g texts) es) (toks_map g cs)
  | EAssign a l q r => EAssign (map (attr_map g) a) (expr_map g texts l) (toks_map g q) (expr_map g texts r)
  | EAsync a kw sp b => EAsync (map (attr_map g) a) (toks_map g kw) (g sp) (map (stmt_map g texts) b)
  | EAwait a e k => EAwait (map (attr_map g) a) (expr_map g texts e) (toks_map g k)
  | EBinary a l op r => EBinary (map (attr_map g) a) (expr_map g texts l) (toks_map g op) (expr_map g texts r)
  | EBlock a lbl sp b => EBlock (map (attr_map g) a) (toks_map g lbl) (g sp) (map (stmt_map g texts) b)
  | EBreak a kw e => EBreak (map (attr_map g) a) (toks_map g kw) (option_map (expr_map g texts) e)
  | ECall a f sp es cs => ECall (map (attr_map g) a) (expr_map g texts f) (g sp) (map (expr_map g texts) es) (toks_map g cs)
  | ECast a e ty => ECast (map (attr_map g) a) (expr_map g texts e) (toks_map g ty)
  | EClosure a hd out body => EClosure (map (attr_map g) a) (toks_map g hd) (ret_map g out) (expr_map g texts body)
  | EConst a kw sp b => EConst (map (attr_map g) a) (toks_map g kw) (g sp) (map (stmt_map g texts) b)
  | EContinue a kw => EContinue (map (attr_map g) a) (toks_map g kw)
  | EField a e m => EField (map (attr_map g) a) (expr_map g texts e) (toks_map g m)
  | EForLoop a kw e sp b => EForLoop (map (attr_map g) a) (toks_map g kw) (expr_map g texts e) (g sp) (map (stmt_map g texts) b)
  | EGroup a sp e => EGroup (map (attr_map g) a) (g sp) (expr_map g texts e)
  | EIf a kw c sp b ek el => EIf (map (attr_map g) a) (toks_map g kw) (expr_map g texts c) (g sp) (map (stmt_map g texts) b) (toks_map g ek) (option_map (expr_map g texts) el)
  | EIndex a e sp i => EIndex (map (attr_map g) a) (expr_map g texts e) (g sp) (expr_map g texts i)
  | EInfer a kw => EInfer (map (attr_map g) a) (toks_map g kw)
  | ELet a kw e => ELet (map (attr_map g) a) (toks_map g kw) (expr_map g texts e)
  | ELit a l sp => ELit (map (attr_map g) a) l (g sp)
  | ELoop a kw sp b => ELoop (map (attr_map g) a) (toks_map g kw) (g sp) (map (stmt_map g texts) b)
  | EMacro a m => EMacro (map (attr_map g) a) (mac_map g texts m)
  | EMatch a kw e sp arms => EMatch (map (attr_map g) a) (toks_map g kw) (expr_map g texts e) (g sp) (map (arm_map g texts) arms)
  | EMethodCall a e m sp es cs => EMethodCall (map (attr_map g) a) (expr_map g texts e) (toks_map g m) (g sp) (map (expr_map g texts) es) (toks_map g cs)
  | EParen a sp e => EParen (map (attr_map g) a) (g sp) (expr_map g texts e)
  | EPath a p => EPath (map (attr_map g) a) (path_map g p)
  | ERange a s lim t => ERange (map (attr_map g) a) (option_map (expr_map g texts) s) (toks_map g lim) (option_map (expr_map g texts) t)
  | ERawAddr a kw e => ERawAddr (map (attr_map g) a) (toks_map g kw) (expr_map g texts e)
  | EReference a kw e => EReference (map (attr_map g) a) (toks_map g kw) (expr_map g texts e)
  | ERepeat a sp e semi len => ERepeat (map (attr_map g) a) (g sp) (expr_map g texts e) (toks_map g semi) (expr_map g texts len)
  | EReturn a sp e => EReturn (map (attr_map g) a) (g sp) (option_map (expr_map g texts) e)
  | EStruct a p sp fs cs dots rest => EStruct (map (attr_map g) a) (path_map g p) (g sp) (map (field_map g texts) fs) (toks_map g cs) (toks_map g dots) (option_map (expr_map g texts) rest)
  | ETry a e sp => ETry (map (attr_map g) a) (expr_map g texts e) (g sp)
  | ETryBlock a kw sp b => ETryBlock (map (attr_map g) a) (toks_map g kw) (g sp) (map (stmt_map g texts) b)
  | ETuple a sp es cs => ETuple (map (attr_map g) a) (g sp) (map (expr_map g texts) es) (toks_map g cs)
  | EUnary a op e => EUnary (map (attr_map g) a) (toks_map g op) (expr_map g texts e)
  | EUnsafe a kw sp b => EUnsafe (map (attr_map g) a) (toks_map g kw) (g sp) (map (stmt_map g texts) b)
  | EWhile a kw c sp b => EWhile (map (attr_map g) a) (toks_map g kw) (expr_map g texts c) (g sp) (map (stmt_map g texts) b)
  | EYield a kw e => EYield (map (attr_map g) a) (toks_map g kw) (option_map (expr_map g texts) e)
  | EVerbatim ts => EVerbatim (toks_map g ts)
  | EHook h o r => EHook (hook_map g h) (expr_map g texts o) (if texts then expr_map g texts r else EVerbatim [])
  end
with stmt_map (g : span -> span) (texts : bool) (s : stmt) {struct s} : stmt :=
  match s with
  | SLocal a pat semi => SLocal (map (attr_map g) a) (toks_map g pat) (toks_map g semi)
  | SLocalInit a pat e ek el semi => SLocalInit (map (attr_map g) a) (toks_map g pat) (expr_map g texts e) (toks_map g ek) (option_map (expr_map g texts) el) (toks_map g semi)
  | SItem i => SItem (item_map g texts i)
  | SExpr e semi => SExpr (expr_map g texts e) (option_map g semi)
  | Syntax.SMacro a m semi => Syntax.SMacro (map (attr_map g) a) (mac_map g texts m) (toks_map g semi)
  end
with item_map (g : span -> span) (texts : bool) (i : item) {struct i} : item :=
  match i with
  | IFn a vis s sp b => IFn (map (attr_map g) a) (toks_map g vis) (sig_map g s) (g sp) (map (stmt_map g texts) b)
  | IImpl a hd sp its => IImpl (map (attr_map g) a) (toks_map g hd) (g sp) (map (impl_map g texts) its)
  | IMod a hd sp its => IMod (map (attr_map g) a) (toks_map g hd) (g sp) (map (item_map g texts) its)
  | IConst a hd e semi => IConst (map (attr_map g) a) (toks_map g hd) (expr_map g texts e) (toks_map g semi)
  | IStatic a hd e semi => IStatic (map (attr_map g) a) (toks_map g hd) (expr_map g texts e) (toks_map g semi)
  | ITrait a hd sp its => ITrait (map (attr_map g) a) (toks_map g hd) (g sp) (map (trait_map g texts) its)
  | IMacro a name m semi => IMacro (map (attr_map g) a) name (mac_map g texts m) (toks_map g semi)
  | IOther a ts => IOther (map (attr_map g) a) (toks_map g ts)
  end
with impl_map (g : span -> span) (texts : bool) (i : impl_item) {struct i} : impl_item :=
  match i with
  | IIFn a vis s sp b => IIFn (map (attr_map g) a) (toks_map g vis) (sig_map g s) (g sp) (map (stmt_map g texts) b)
  | IIConst a hd e semi => IIConst (map (attr_map g) a) (toks_map g hd) (expr_map g texts e) (toks_map g semi)
  | IIMacro a m semi => IIMacro (map (attr_map g) a) (mac_map g texts m) (toks_map g semi)
  | IIOther a ts => IIOther (map (attr_map g) a) (toks_map g ts)
  end
with trait_map (g : span -> span) (texts : bool) (i : trait_item) {struct i} : trait_item :=
  match i with
  | TIConst a hd e semi => TIConst (map (attr_map g) a) (toks_map g hd) (expr_map g texts e) (toks_map g semi)
  | TIFn a s sp b => TIFn (map (attr_map g) a) (sig_map g s) (g sp) (map (stmt_map g texts) b)
  | TIMacro a m semi => TIMacro (map (attr_map g) a) (mac_map g texts m) (toks_map g semi)
  | TIOther a ts => TIOther (map (attr_map g) a) (toks_map g ts)
  end
with arm_map (g : span -> span) (texts : bool) (r : arm) {struct r} : arm :=
  match r with
  | Arm a pat ik guard arrow body comma => Arm (map (attr_map g) a) (toks_map g pat) (toks_map g ik) (option_map (expr_map g texts) guard) (toks_map g arrow) (expr_map g texts body) (toks_map g comma)
  end
with field_map (g : span -> span) (texts : bool) (f : fieldv) {struct f} : fieldv :=
  match f with
  | FieldV a member colon e => FieldV (map (attr_map g) a) (toks_map g member) (toks_map g colon) (expr_map g texts e)
  end
with mac_map (g : span -> span) (texts : bool) (m : mac) {struct m} : mac :=
  match m with
  | Mac p d sp ts None => Mac (path_map g p) d (g sp) (toks_map g ts) None
  | Mac p d sp ts (Some l) => Mac (path_map g p) d (g sp) (if texts then toks_map g ts else []) (Some (map (ev_map g texts) l))
  end
with ev_map (g : span -> span) (texts : bool) (v : evaluable) {struct v} : evaluable :=
  match v with
  | VFile fa its p => VFile (map (attr_map g) fa) (map (item_map g texts) its) (toks_map g p)
  | VItem i p => VItem (item_map g texts i) (toks_map g p)
  | VExpr e p => VExpr (expr_map g texts e) (toks_map g p)
  | VStmt s p => VStmt (stmt_map g texts s) (toks_map g p)
  end.
