(** Specification: a part of Rust that runs.

    Literals, variables, paths without generic arguments, calls, method calls, fields, [.await], operators, ranges, assignments, [?], [return], [break], [continue], blocks, [unsafe], [let] (with [else]), [if], [if let] and chains of them, [match], loops,
    parentheses, tuples, arrays, indexing, references, and closures as arguments of [inspect_err] and its like (not run) and of the methods of [Result] and [Option] below (run).  Everything else is stuck: labels, macros,
    struct literals, casts, ranges with an end open, [async], closures that are called or given to another function.

    Functions other than [Ok], [Err], [Some], [inspect_err] and those that add a context to an error are the library [lib], and so are operators other than [&&] and [||], ranges, fields, [.await], indexing and the iterator behind a [for].  What a call returns may
    depend on all calls before it: an object is a name, and its state is in the library.  What a call gets by [&mut x], with a variable [x], it may change; [&e] is the value of [e].  *)
From Coq Require Import String Ascii Bool Arith List.
From Verif Require Import Base Tokens Method Paths Context Flavor Attrs Syntax Walker ProgSpec WalkSpec MeaningSpec.
Import ListNotations.
Open Scope string_scope.
Open Scope list_scope.

(** [VName] is a name, number or [None], [VText] a string, [VFun] a closure.  [VMut] is a variable that is borrowed (the number of variables below it); a call sees [VSeen]: what it contains.
    [VCtx] is an error with one more context.  *)
Inductive val : Type := VUnit | VName (s : string) | VText (s : string) | VOk (v : val) | VErr (v : val) | VSome (v : val) | VTuple (vs : list val) | VArray (vs : list val) | VFun | VMut (level : nat) | VSeen (v : val)
  | VCtx (v : val).
(** without the contexts around it *)
Fixpoint core (v : val) : val := match v with VCtx v => core v | v => v end.
(** without contexts anywhere *)
Fixpoint strip (v : val) : val :=
  match v with
  | VOk v => VOk (strip v) | VErr v => VErr (strip v) | VSome v => VSome (strip v) | VSeen v => VSeen (strip v)
  | VTuple vs => VTuple (map strip vs) | VArray vs => VArray (map strip vs)
  | VCtx v => strip v
  | v => v
  end.
(** variables, the newest first; calls, the oldest first; the errors shown to observers *)
Record world : Type := mk_world { w_vars : list (string * val); w_calls : list (val * list val); w_log : list val }.
(** an expression has a value, leaves the function with one, leaves the loop with one, starts the next round, needs more rounds than are allowed, or is stuck *)
Inductive flow : Type := Go (v : val) | Leave (v : val) | Break (v : val) | Next | Far | Stuck.
(** calls so far, function and arguments: the result, and what the variables given by [&mut] are from now on *)
Definition library : Type := list (val * list val) -> val -> list val -> val * list val.

(** * Variables *)
Definition lookup (x : string) (w : world) : val := match find (fun y => String.eqb (fst y) x) (w_vars w) with Some (_, v) => v | None => VName x end.
Definition with_vars (vars : list (string * val)) (w : world) : world := mk_world vars (w_calls w) (w_log w).
Definition bind_all (xs : list (string * val)) (w : world) : world := with_vars (xs ++ w_vars w) w.
Fixpoint level (x : string) (vars : list (string * val)) : option nat :=
  match vars with [] => None | (y, _) :: r => if String.eqb y x then Some (length r) else level x r end.
Fixpoint content (l : nat) (vars : list (string * val)) : val :=
  match vars with [] => VUnit | (_, v) :: r => if Nat.eqb (length r) l then v else content l r end.
Fixpoint put (l : nat) (v : val) (vars : list (string * val)) : list (string * val) :=
  match vars with [] => [] | (y, u) :: r => if Nat.eqb (length r) l then (y, v) :: r else (y, u) :: put l v r end.
(** what a call sees of its arguments, and what it changes *)
Definition seen (vars : list (string * val)) (v : val) : val := match core v with VMut l => VSeen (content l vars) | _ => v end.
Fixpoint put_all (vs news : list val) (vars : list (string * val)) : list (string * val) :=
  match vs with
  | [] => vars
  | u :: vs => match core u, news with VMut l, v :: news => put_all vs news (put l v vars) | VMut _, [] => vars | _, _ => put_all vs news vars end
  end.
(** variables of a block end with it *)
Definition cut (w w1 : world) : world := with_vars (skipn (length (w_vars w1) - length (w_vars w)) (w_vars w1)) w1.
Definition leave_block (w : world) (r : flow * world) : flow * world := (fst r, cut w (snd r)).

(** * Patterns *)
Inductive outcome : Type := Fits (xs : list (string * val)) | Fails | Unknown.
Definition constants : list string := ["None"; "true"; "false"].
(** [_], [x], [mut x], [None], a literal; a type may follow a variable *)
Definition fits_simple (pt : list tt) (v : val) : outcome :=
  match pt with
  | [TIdent x _] =>
      if String.eqb x "_" then Fits []
      else if existsb (String.eqb x) constants then match core v with VName y => if String.eqb x y then Fits [] else Fails | _ => Fails end
      else Fits [(x, v)]
  | TIdent x _ :: TPunct ":" _ :: TIdent _ _ :: _ => Fits [(x, v)]
  | [TIdent "mut" _; TIdent x _] | TIdent "mut" _ :: TIdent x _ :: TPunct ":" _ :: TIdent _ _ :: _ => Fits [(x, v)]
  | [TLit (LOther s) _] => match core v with VName y => if String.eqb s y then Fits [] else Fails | _ => Fails end
  | [TLit (LStr s) _] => match core v with VText y => if String.eqb s y then Fits [] else Fails | _ => Fails end
  | _ => Unknown
  end.
(** these and [Ok(p)], [Err(p)], [Some(p)] *)
Definition fits (pt : list tt) (v : val) : outcome :=
  match pt with
  | [TIdent x _; TGroup Parenth p _] =>
      if String.eqb x "Ok" then match core v with VOk u => fits_simple p u | _ => Fails end
      else if String.eqb x "Err" then match core v with VErr u => fits_simple p u | _ => Fails end
      else if String.eqb x "Some" then match core v with VSome u => fits_simple p u | _ => Fails end
      else Unknown
  | _ => fits_simple pt v
  end.
(** the pattern between [let] and [=], and between [for] and [in] *)
Definition between (ts : list tt) : list tt := removelast (tl ts).

(** * What is assigned to: a variable [x], or [*x] *)
(** Rust has no [x.inspect_err(f) += 1]; here it assigns to [x] *)
(** the methods that have the value of their receiver; the last two put a context around an error *)
Definition passing : list string := ["inspect_err"; "with_context"; "wrap_err_with"].
Fixpoint place (e : expr) : option (bool * string) :=
  match e with
  | EPath _ (mk_path false [mk_seg x [] _]) => Some (false, x)
  | EUnary _ [TPunct "*" _] e0 => match place e0 with Some (false, x) => Some (true, x) | _ => None end
  | EMethodCall _ e0 [TPunct _ _; TIdent m _] _ _ _ => if existsb (String.eqb m) passing then place e0 else None
  | _ => None
  end.
Definition borrowed (p : option (bool * string)) (w : world) : option nat :=
  match p with
  | Some (false, x) => level x (w_vars w)
  | Some (true, x) => match core (lookup x w) with VMut l => Some l | _ => None end
  | None => None
  end.
Fixpoint spelled (o : list tt) : string := match o with TPunct c _ :: r => String c (spelled r) | TIdent x _ :: r => x ++ spelled r | TLit (LOther s) _ :: r => s ++ spelled r | _ => "" end.
Definition changing : list string := ["+="; "-="; "*="; "/="; "%="; "^="; "&="; "|="; "<<="; ">>="].

(** [a::b::c], without generic arguments, is the name of a function, constant or variant; it is no variable *)
Definition full_name (p : path) : option string :=
  if forallb (fun s => match seg_args s with [] => true | _ => false end) (p_segs p) then Some ((if p_lead p then "::" else "") ++ String.concat "::" (p_idents p))%string else None.
Section Run.
  Variable rounds : nat.   (* how often a loop may go round *)
  Variable lib : library.

  Definition is_fun (v : val) : bool := match core v with VFun => true | _ => false end.
  Definition apply (f : val) (vs : list val) (w : world) : flow * world :=
    match core f, vs with
    | VName "Ok", [v] => (Go (VOk v), w)
    | VName "Err", [v] => (Go (VErr v), w)
    | VName "Some", [v] => (Go (VSome v), w)
    | _, _ =>
        if existsb is_fun (f :: vs) then (Stuck, w)
        else let us := map (seen (w_vars w)) vs in
             let r := lib (w_calls w) f us in
             (Go (fst r), mk_world (put_all vs (snd r) (w_vars w)) (w_calls w ++ [(f, us)]) (w_log w))
    end.
  (** [v.inspect_err(f)] shows an error to [f] and has the value [v]; [v.with_context(f)] adds a context to an error.  What is no [Result] Rust rejects there; here it passes.  Other methods are calls.  *)
  Definition method (m : list tt) (v : val) (vs : list val) (w : world) : flow * world :=
    match m with
    | [TPunct _ _; TIdent x _] =>
        if String.eqb x "inspect_err" then (Go v, match core v with VErr x => mk_world (w_vars w) (w_calls w) (w_log w ++ [x]) | _ => w end)
        else if existsb (String.eqb x) passing then (Go (match core v with VErr u => VErr (VCtx u) | _ => v end), w)
        else apply (VName x) (v :: vs) w
    | TPunct _ _ :: TIdent x sp :: TPunct ":" c :: r =>   (* [x::<T>] *)
        if existsb (String.eqb x) passing || existsb (fun t => match t with TGroup _ _ _ => true | _ => false end) r then (Stuck, w) else apply (VName (spelled (TIdent x sp :: TPunct ":" c :: r))) (v :: vs) w
    | _ => (Stuck, w)
    end.
  (** [next] goes on with the value *)
  Definition andthen (r : flow * world) (next : val -> world -> flow * world) : flow * world :=
    match r with (Go v, w) => next v w | (x, w) => (x, w) end.
  Definition choose (v : val) (yes no : flow * world) (w : world) : flow * world :=
    match core v with VName "true" => yes | VName "false" => no | _ => (Stuck, w) end.
  (** * Closures given to methods of [Result] and [Option] *)
  Definition combinators : list string := ["map"; "and_then"; "map_err"; "or_else"; "unwrap_or_else"; "ok_or_else"].
  (** the method [x] of [v] with the closure [call] *)
  Definition combine (x : string) (v : val) (call : list val -> world -> flow * world) (w : world) : flow * world :=
    let wrap k r := andthen r (fun u w => (Go (k u), w)) in
    let is y := String.eqb x y in
    match core v with
    | VOk u => if is "map" then wrap VOk (call [u] w) else if is "and_then" then call [u] w else if is "map_err" || is "or_else" then (Go v, w) else if is "unwrap_or_else" then (Go u, w) else (Stuck, w)
    | VErr u => if is "map" || is "and_then" then (Go v, w) else if is "map_err" then wrap VErr (call [u] w) else if is "or_else" || is "unwrap_or_else" then call [u] w else (Stuck, w)
    | VSome u => if is "map" then wrap VSome (call [u] w) else if is "and_then" then call [u] w else if is "or_else" then (Go v, w) else if is "unwrap_or_else" then (Go u, w) else if is "ok_or_else" then (Go (VOk u), w) else (Stuck, w)
    | VName "None" => if is "map" || is "and_then" then (Go v, w) else if is "or_else" || is "unwrap_or_else" then call [] w else if is "ok_or_else" then wrap VErr (call [] w) else (Stuck, w)
    | _ => (Stuck, w)
    end.
  (** between the bars *)
  Definition params (hd : list tt) : option (list tt) := match hd with TPunct "|" _ :: _ => Some (between hd) | TIdent "move" _ :: TPunct "|" sp :: r => Some (between (TPunct "|" sp :: r)) | _ => None end.
  Definition bind_params (hd : list tt) (vs : list val) : outcome :=
    match params hd, vs with Some [], [] => Fits [] | Some pt, [v] => fits pt v | _, _ => Unknown end.
  (** [return] and [?] leave the closure; variables around it are seen and may be changed *)
  Definition run_closure (run : expr -> world -> flow * world) : expr -> list val -> world -> flow * world :=
    fix go f vs w :=
      match f with
      | EClosure _ hd _ body =>
          match bind_params hd vs with
          | Fits xs => leave_block w (match run body (bind_all xs w) with (Leave v, w1) => (Go v, w1) | (Break _, w1) | (Next, w1) => (Stuck, w1) | r => r end)
          | _ => (Stuck, w)
          end
      | EMethodCall _ e0 _ _ _ _ => go e0 vs w   (* only where [is_closure]: Rust has no [|x| e.inspect_err(f)] on the closure *)
      | _ => (Stuck, w)
      end.
  Fixpoint is_closure (e : expr) : bool :=
    match e with
    | EClosure _ _ _ _ => true
    | EMethodCall _ e0 [TPunct _ _; TIdent m _] _ _ _ => existsb (String.eqb m) passing && is_closure e0
    | _ => false
    end.
  Definition combinator (m : list tt) (es : list expr) : option string :=
    match m, es with [TPunct _ _; TIdent x _], [f] => if existsb (String.eqb x) combinators && is_closure f then Some x else None | _, _ => None end.
  (** round after round *)
  Fixpoint again (n : nat) (body : world -> flow * world) (w : world) : flow * world :=
    match n with
    | 0 => (Far, w)
    | S n => match body w with (Go _, w1) | (Next, w1) => again n body w1 | (Break v, w1) => (Go v, w1) | x => x end
    end.
  (** assignment to what is left of [=]; [v] is its value if it is no variable *)
  Definition assign (p : option (bool * string)) (left : world -> flow * world) (v : val) (w : world) : flow * world :=
    match borrowed p w with
    | Some l => (Go VUnit, with_vars (put l v (w_vars w)) w)
    | None => andthen (left w) (fun u => apply (VName "=") [u; v])
    end.

  (** arguments, from left to right *)
  Definition run_args (run : expr -> world -> flow * world) : list expr -> list val -> (list val -> world -> flow * world) -> world -> flow * world :=
    fix args es vs next w := match es with [] => next vs w | e :: r => andthen (run e w) (fun v => args r (vs ++ [v]) next) end.
  Definition run_method (run : expr -> world -> flow * world) (m : list tt) (es : list expr) (v : val) (w : world) : flow * world :=
    match combinator m es, es with Some x, [f] => combine x v (run_closure run f) w | _, _ => run_args run es [] (method m v) w end.
  Definition collect (mk : list val -> val) (vs : list val) (w : world) : flow * world := if existsb is_fun vs then (Stuck, w) else (Go (mk vs), w).
  (** statements in order; [last] is the value of the block so far *)
  Definition run_stmts (run : expr -> world -> flow * world) : list stmt -> val -> world -> flow * world :=
    fix block b last w :=
      match b with
      | [] => (Go last, w)
      | SExpr e None :: r => andthen (run e w) (fun v => block r v)
      | SExpr e (Some _) :: r => andthen (run e w) (fun _ => block r VUnit)
      | SLocalInit _ pat e _ el _ :: r =>
          andthen (run e w) (fun v w =>
            match fits (between pat) v with
            | Fits xs => block r VUnit (bind_all xs w)
            | Fails => match el with Some e => andthen (run e w) (fun _ w => (Stuck, w)) | None => (Stuck, w) end
            | Unknown => (Stuck, w)
            end)
      | SLocal _ pat _ :: r => match fits (tl pat) VUnit with Fits xs => block r VUnit (bind_all xs w) | _ => (Stuck, w) end   (* [let x;]: Rust sees to it that [x] is not read before it is assigned *)
      | SItem _ :: r => block r VUnit w
      | _ => (Stuck, w)
      end.
  (** the first arm that fits and whose guard holds *)
  Definition run_arms (run : expr -> world -> flow * world) (v : val) : list arm -> world -> flow * world :=
    fix arms ms w :=
      match ms with
      | [] => (Stuck, w)
      | Arm _ pt _ guard _ body _ :: r =>
          match fits pt v with
          | Fits xs =>
              match guard with
              | None => leave_block w (run body (bind_all xs w))
              | Some g => andthen (run g (bind_all xs w)) (fun u w1 => choose u (leave_block w (run body w1)) (arms r (cut w w1)) w1)
              end
          | Fails => arms r w
          | Unknown => (Stuck, w)
          end
      end.

  Fixpoint run (e : expr) (w : world) {struct e} : flow * world :=
    let scope b w := leave_block w (run_stmts run b VUnit w) in
    match e with
    | ELit _ (LOther s) _ => (Go (VName s), w)
    | ELit _ (LStr s) _ => (Go (VText s), w)
    | EPath _ p => match p with mk_path false [mk_seg x [] _] => (Go (lookup x w), w) | _ => match full_name p with Some s => (Go (VName s), w) | None => (Stuck, w) end end
    | ECall _ f _ es _ => andthen (run f w) (fun v => run_args run es [] (apply v))
    | EMethodCall _ e0 m _ es _ => andthen (run e0 w) (run_method run m es)
    | EField _ e0 m | EAwait _ e0 m => andthen (run e0 w) (fun v => apply (VName (spelled m)) [v])
    | EIndex _ e0 _ i => andthen (run e0 w) (fun v w => andthen (run i w) (fun u => apply (VName "[]") [v; u]))
    | ERange _ (Some l) op (Some r) => andthen (run l w) (fun v w => andthen (run r w) (fun u => apply (VName (spelled op)) [v; u]))
    | EReference _ kw e0 =>
        match kw with
        | [TPunct _ _; TIdent "mut" _] => match borrowed (place e0) w with Some l => (Go (VMut l), w) | None => run e0 w end
        | _ => run e0 w
        end
    | EUnary _ op e0 =>
        andthen (run e0 w) (fun v w => match core v, String.eqb (spelled op) "*" with VMut l, true => (Go (content l (w_vars w)), w) | _, _ => apply (VName (spelled op)) [v] w end)
    | EBinary _ l op r =>
        if String.eqb (spelled op) "&&" then andthen (run l w) (fun v w => choose v (run r w) (Go v, w) w)
        else if String.eqb (spelled op) "||" then andthen (run l w) (fun v w => choose v (Go v, w) (run r w) w)
        else if existsb (String.eqb (spelled op)) changing then
          andthen (run r w) (fun u w => match borrowed (place l) w with
            | Some n => andthen (apply (VName (spelled op)) [VMut n; u] w) (fun _ w => (Go VUnit, w))
            | None => andthen (run l w) (fun v => apply (VName (spelled op)) [v; u])
            end)
        else andthen (run l w) (fun v w => andthen (run r w) (fun u => apply (VName (spelled op)) [v; u]))
    | EAssign _ l _ r => andthen (run r w) (fun v => assign (place l) (run l) v)
    | ETry _ e0 _ =>
        andthen (run e0 w) (fun v w => match core v with
          | VOk u | VSome u => (Go u, w)
          | VErr _ | VName "None" => (Leave v, w)
          | _ => (Stuck, w)
          end)
    | EReturn _ _ (Some e0) => andthen (run e0 w) (fun v w => (Leave v, w))
    | EReturn _ _ None => (Leave VUnit, w)
    | EBreak _ [_] (Some e0) => andthen (run e0 w) (fun v w => (Break v, w))
    | EBreak _ [_] None => (Break VUnit, w)
    | EContinue _ [_] => (Next, w)
    | EParen _ _ e0 | EGroup _ _ e0 => run e0 w
    | EClosure _ _ _ _ => (Go VFun, w)
    | ETuple _ _ [] _ => (Go VUnit, w)
    | ETuple _ _ es _ => run_args run es [] (collect VTuple) w
    | EArray _ _ es _ => run_args run es [] (collect VArray) w
    | EBlock _ [] _ b | EUnsafe _ _ _ b => scope b w
    | ELet _ kw e0 =>
        andthen (run e0 w) (fun v w => match fits (between kw) v with
          | Fits xs => (Go (VName "true"), bind_all xs w)
          | Fails => (Go (VName "false"), w)
          | Unknown => (Stuck, w)
          end)
    | EIf _ _ c _ b _ el =>
        leave_block w (andthen (run c w) (fun v w1 => choose v (scope b w1) (match el with Some x => run x (cut w w1) | None => (Go VUnit, w1) end) w1))
    | EMatch _ _ e0 _ ms => andthen (run e0 w) (fun v => run_arms run v ms)
    | ELoop _ [_] _ b => again rounds (scope b) w
    | EWhile _ [_] c _ b => again rounds (fun w => leave_block w (andthen (run c w) (fun v w1 => choose v (scope b w1) (Break VUnit, w1) w1))) w
    | EForLoop _ (TIdent "for" sp :: kw) e0 _ b =>
        andthen (run e0 w) (fun v w => andthen (apply (VName "into_iter") [v] w) (fun it w =>
          again rounds (fun w => andthen (apply (VName "next") [it] w) (fun o w => match core o with
            | VSome x => match fits (between (TIdent "for" sp :: kw)) x with Fits xs => leave_block w (scope b (bind_all xs w)) | _ => (Stuck, w) end
            | VName "None" => (Break VUnit, w)
            | _ => (Stuck, w)
            end)) w))
    | _ => (Stuck, w)
    end.
  (** the body of a function: its result *)
  Definition run_fn (b : list stmt) (w : world) : flow * world :=
    match run (EBlock [] [] call_site b) w with (Leave v, w) => (Go v, w) | x => x end.
End Run.

(** the same but for the log *)
Definition agree (w w' : world) : Prop := w_vars w = w_vars w' /\ w_calls w = w_calls w'.
Definition same_run (r r' : flow * world) : Prop := fst r = fst r' /\ agree (snd r) (snd r').
(** the same but for the log and what [st] forgets, which is nothing ([exactly]) or contexts ([strip]) *)
Definition exactly (v : val) : val := v.
Definition vars_of (st : val -> val) (vars : list (string * val)) : list (string * val) := map (fun x => (fst x, st (snd x))) vars.
Definition calls_of (st : val -> val) (calls : list (val * list val)) : list (val * list val) := map (fun c => (st (fst c), map st (snd c))) calls.
Definition flow_of (st : val -> val) (f : flow) : flow := match f with Go v => Go (st v) | Leave v => Leave (st v) | Break v => Break (st v) | f => f end.
Definition agree_upto (st : val -> val) (w w' : world) : Prop := vars_of st (w_vars w) = vars_of st (w_vars w') /\ calls_of st (w_calls w) = calls_of st (w_calls w').
Definition same_upto (st : val -> val) (r r' : flow * world) : Prop := flow_of st (fst r) = flow_of st (fst r') /\ agree_upto st (snd r) (snd r').
(** a library that does not look at what [st] forgets *)
Definition blind (st : val -> val) (lib : library) : Prop := forall past past' f f' vs vs',
  calls_of st past = calls_of st past' -> st f = st f' -> map st vs = map st vs' ->
  st (fst (lib past f vs)) = st (fst (lib past' f' vs')) /\ map st (snd (lib past f vs)) = map st (snd (lib past' f' vs')).
(** the same values, the same calls in the same order, the same ways out; and they can be assigned to alike, and as closures they do the same *)
Definition runs_like (st : val -> val) (n : nat) (lib : library) (e e' : expr) : Prop :=
  place e = place e' /\ (forall w w', agree_upto st w w' -> same_upto st (run n lib e w) (run n lib e' w')) /\
  (is_closure e = is_closure e' /\ forall vs vs' w w', map st vs = map st vs' -> agree_upto st w w' -> same_upto st (run_closure (run n lib) e vs w) (run_closure (run n lib) e' vs' w')).
(** the name of a function, or a closure *)
Definition observer (f : expr) : Prop := match f with EPath [] (mk_path false [mk_seg _ [] _]) | EClosure _ _ _ _ => True | _ => False end.
(** every hook is [target.m(f)] with such a method *)
Definition calls_only (ms : list string) (out : item) : Prop := forall h o r, In (EHook h o r) (item_subs out) ->
  h_consumed h = None /\ exists m sp1 sp2 sp3 f, In m ms /\ r = EMethodCall [] (actual o) [TPunct "." sp1; TIdent m sp2] sp3 [f] [] /\ observer f.
(** [target.inspect_err(f)] *)
Definition inspecting (out : item) : Prop := forall h o r, In (EHook h o r) (item_subs out) ->
  h_consumed h = None /\ exists sp1 sp2 sp3 f, r = EMethodCall [] (actual o) [TPunct "." sp1; TIdent "inspect_err" sp2] sp3 [f] [] /\ observer f.
