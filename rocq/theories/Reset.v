(** kind_resetter_*.go and the two node helpers they use (node.go:460-555):
    refinement of node kinds inside func and type declarations.

    Not modelled: the debug output ([helper.DebugPrint], [debugText]), which has
    no effect on nodes, and [parenthesisResetter2] (kind_resetter_parenthesis.go
    171-255), which nothing in the repository uses. *)
From Verif Require Export Node.

(** The state of a refinement: the heap, and the variable [buf] of the active
    [paramResetter.Run] (kind_resetter_all.go:121), which hooks append to.  One
    such variable is enough: paramResetter is only ever started by typeResetter,
    which is only started by resetKind. *)
Record st := mkSt { s_heap : heap; s_buf : list ptr }.
Definition M (A : Type) := st -> res (st * A).
Definition ret {A} (a : A) : M A := fun s => Ok (s, a).
Definition bind {A B} (m : M A) (k : A -> M B) : M B :=
  fun s => res_bind (m s) (fun '(s, a) => k a s).
Definition out {A} : M A := fun _ => OutOfFuel.
Notation "x <- m ; k" := (bind m (fun x => k))
  (at level 100, m at next level, right associativity).
Notation "m ;;; k" := (bind m (fun _ => k)) (at level 100, k at level 200, right associativity).

Definition get_kind (p : ptr) : M kind := fun s => Ok (s, kind_of (s_heap s) p).
Definition get_next (p : ptr) : M ptr := fun s => Ok (s, next_of (s_heap s) p).
Definition do_set_kind (p : ptr) (k : kind) : M unit :=
  fun s => Ok (mkSt (set_kind (s_heap s) p k) (s_buf s), tt).

(** Hooks: callbacks taking a node pointer. *)
Definition hook := ptr -> st -> st.
(** kind_resetter_all.go:23-27 [handleHook] *)
Definition handle_hook (n : ptr) (hooks : list hook) : M unit :=
  fun s => Ok (fold_left (fun s hk => hk n s) hooks s, tt).

(** The two hooks of the code: kind_resetter_all.go:159-161 and
    kind_resetter_type.go:259-263. *)
Definition buf_hook : hook := fun n s =>
  mkSt (s_heap s) (append_unrepeatable (s_buf s) [n]).
Definition raw_hook : hook := fun n s =>
  if kind_eqb (kind_of (s_heap s) n) KRaw
  then mkSt (set_kind (s_heap s) n KParamType) (s_buf s) else s.

Definition mem_kind (k : kind) (l : list kind) : bool := bool_decide (k ∈ l).

(** IterNext with a stateful callback. *)
Definition iterM {X} (fuel : nat) (body : loc -> X -> M (X * bool)) (p : ptr) (x : X) : M (X * ptr) :=
  fun s =>
    res_bind (loop fuel (fun sx l => next_of (s_heap (fst sx)) (Some l))
                (fun l sx => res_bind (body l (snd sx) (fst sx))
                               (fun '(s, (x, b)) => Ok ((s, x), b)))
                p (s, x))
             (fun '((s, x), r) => Ok (s, (x, r))).

(** The walking pattern that all resetters repeat verbatim:
    {[
      handleHook(n, hooks...)
      if skipAll { return true }
      if jumpTo != nil { if n != jumpTo { return true }; jumpTo = nil }
      switch n.Kind() { ... return false / return true /
                        jumpTo = X; skipAll = jumpTo == nil; return true }
    ]}
    e.g. kind_resetter_all.go:140-189.  [sw] is the switch; it answers with one
    of the three actions.  typeResetter (kind_resetter_type.go:29-40) also skips
    the target of the jump itself: [skip_target]. *)
Inductive act := Stop | Cont | Jump (p : ptr).
Record wl (X : Type) := mkWl { w_skip : bool; w_jump : ptr; w_x : X }.
Arguments mkWl {X}. Arguments w_skip {X}. Arguments w_jump {X}. Arguments w_x {X}.

Definition walk_body {X} (skip_target : bool) (hooks : list hook)
    (sw : loc -> X -> M (act * X)) (l : loc) (w : wl X) : M (wl X * bool) :=
  handle_hook (Some l) hooks ;;;
  if w_skip w then ret (w, true)
  else if negb (ptr_eqb (w_jump w) None) && negb (ptr_eqb (Some l) (w_jump w))
  then ret (w, true)
  else if negb (ptr_eqb (w_jump w) None) && skip_target
  then ret (mkWl false None (w_x w), true)
  else
    ax <- sw l (w_x w) ;
    match fst ax with
    | Stop => ret (mkWl false None (snd ax), false)
    | Cont => ret (mkWl false None (snd ax), true)
    | Jump p => ret (mkWl (ptr_eqb p None) p (snd ax), true)
    end.

Definition walk {X} (skip_target : bool) (fuel : nat) (hooks : list hook)
    (sw : loc -> X -> M (act * X)) (head : ptr) (x : X) : M ptr :=
  r <- iterM fuel (walk_body skip_target hooks sw) head (mkWl false None x) ;
  ret (snd r).

(** A callback that only reads nodes (it sees the heap of its start). *)
Definition scanM {A} (p : ptr) (fn : heap -> loc -> A -> A * bool) (a : A) : M (A * ptr) :=
  fun s => res_bind (scan_next (s_heap s) p (fn (s_heap s)) a) (fun r => Ok (s, r)).

(** node.go:547-555 [findNodeOption] *)
Record find_opt := mkOpt
  { o_rev : bool; o_inP : bool; o_inC : bool; o_inS : bool;
    o_outP : bool; o_outC : bool; o_outS : bool }.
Definition opt0 := mkOpt false false false false false false false.
Definition opt_rev := mkOpt true false false false false false false.
Definition opt_outside := mkOpt false false false false true true true.

(** node.go:500-513, the counters *)
Definition count_step (k : kind) (c : Z * Z * Z) : Z * Z * Z :=
  let '(p, b, q) := c in
  if kind_eqb k KParenL then (p + 1, b, q)%Z
  else if kind_eqb k KCurlyL then (p, b + 1, q)%Z
  else if kind_eqb k KSquareL then (p, b, q + 1)%Z
  else if kind_eqb k KParenR then (p - 1, b, q)%Z
  else if kind_eqb k KCurlyR then (p, b - 1, q)%Z
  else if kind_eqb k KSquareR then (p, b, q - 1)%Z
  else c.

(** node.go:515-543, the decision: true = keep iterating *)
Definition find_decide (target : list kind) (o : find_opt) (k : kind) (c : Z * Z * Z) : bool :=
  let '(p, b, q) := c in
  if o_inP o && (p =? 0)%Z then true
  else if o_inC o && (b =? 0)%Z then true
  else if o_inS o && (q =? 0)%Z then true
  else if o_outP o && negb (p =? 0)%Z then true
  else if o_outC o && negb (b =? 0)%Z then true
  else if o_outS o && negb (q =? 0)%Z then true
  else if contain (cset_new target) k then o_rev o
  else negb (o_rev o).

(** node.go:485-545 [findNext] *)
Definition find_next (fuel : nat) (n : ptr) (target : list kind) (o : find_opt)
    (hooks : list hook) : M ptr :=
  r <- iterM fuel (fun l c =>
         handle_hook (Some l) hooks ;;;
         k <- get_kind (Some l) ;
         let c := count_step k c in
         ret (c, find_decide target o k c)) n (0, 0, 0)%Z ;
  ret (snd r).

(** node.go:461-482 [skipNestNext] *)
Definition skip_nest (fuel : nat) (n : ptr) (nestL nestR : kind) (hooks : list hook) : M ptr :=
  k <- get_kind n ;
  n <- (if kind_eqb k nestL
        then handle_hook n hooks ;;;
             m <- find_next fuel n [nestL] opt0 hooks ;
             get_next m
        else ret n) ;
  r <- iterM fuel (fun l (count : Z) =>
         handle_hook (Some l) hooks ;;;
         k <- get_kind (Some l) ;
         if kind_eqb k nestL then ret (count + 1, true)%Z
         else if kind_eqb k nestR
         then ret ((count - 1)%Z, negb (count - 1 =? 0)%Z)
         else ret (count, true)) n 1%Z ;
  ret (snd r).

(** kind_resetter_parenthesis.go:140-150 [curlyBracketResetter.Run] and 157-167
    [squareBracketResetter.Run]: both branches on [skip] do the same. *)
Definition curly_run (fuel : nat) (head : ptr) (hooks : list hook) : M ptr :=
  skip_nest fuel head KCurlyL KCurlyR hooks.
Definition square_run (fuel : nat) (head : ptr) (hooks : list hook) : M ptr :=
  skip_nest fuel head KSquareL KSquareR hooks.

(** The deferred combination, kind_resetter_all.go:131-138 and
    kind_resetter_func.go:251-258. *)
Definition finish_combine (k : kind) (buf : list ptr) : M unit :=
  fun s =>
    match buf with
    | [] => Ok (s, tt)
    | n :: rest =>
      let next := next_of (s_heap s) (default None (last buf)) in
      res_bind (combine_next (s_heap s) n k rest) (fun '(h, n) =>
      Ok (mkSt (fst (replace_next h n next)) (s_buf s), tt))
    end.

(** kind_resetter_func.go:26-31 *)
Record func_flags := mkFF
  { ff_param : bool; ff_lead : bool; ff_iface : bool; ff_notmethod : bool }.
Definition ff_p := mkFF true false false false.
Definition ff_l := mkFF false true false false.
Definition ff_i := mkFF false false true false.
Definition ff_n := mkFF false false false true.

(** kind_resetter_func.go:197-212 [isTemporaryFunc] *)
Definition is_temporary_func (fuel : nat) (head : ptr) : M bool :=
  found <- find_next fuel head [KNewLine; KCurlyR] opt_outside [] ;
  k <- get_kind found ;
  if negb (kind_eqb k KCurlyR) then ret false
  else n <- get_next found ;
       k <- get_kind n ;
       ret (kind_eqb k KParenL).

(** kind_resetter_parenthesis.go:77-88, the count of handleParenthesisParam *)
Definition valid_param_count (head : ptr) : M Z :=
  r <- scanM head (fun h l c =>
         let k := kind_of h (Some l) in
         if mem_kind k [KComma; KParenR] then (c, false)
         else if mem_kind k [KSpace; KTab; KComment; KNewLine] then (c, true)
         else (c + 1, true)%Z) 0%Z ;
  ret (fst r).

(** The mutually recursive part.  Each call takes one unit of fuel; the walks
    inside a call are bounded by the same number. *)
Fixpoint paren_run (fuel : nat) (skip isReceiver : bool) (head : ptr) (hooks : list hook) {struct fuel} : M ptr :=
  match fuel with O => out | S f =>
  (* kind_resetter_parenthesis.go:14-56 parenthesisResetter.Run *)
  if skip then skip_nest f head KParenL KParenR hooks
  else
    k <- get_kind head ;
    if negb (kind_eqb k KParenL)
    then handle_hook head hooks ;;; get_next head
    else walk false f hooks (fun l (_ : unit) =>
           k <- get_kind (Some l) ;
           if kind_eqb k KParenR then ret (Stop, tt)
           else if mem_kind k [KComment; KComma; KParenL; KTab; KNewLine; KSpace] then ret (Cont, tt)
           else p <- paren_param f isReceiver (Some l) hooks ; ret (Jump p, tt)) head tt
  end

with paren_param (fuel : nat) (isReceiver : bool) (head : ptr) (hooks : list hook) {struct fuel} : M ptr :=
  match fuel with O => out | S f =>
  (* kind_resetter_parenthesis.go:59-133 handleParenthesisParam; the walk's
     extra variable is [named] *)
  let nameKind := if isReceiver then KMethodReceiverName else KParamName in
  let typeKind := if isReceiver then KMethodReceiverType else KParamType in
  count <- valid_param_count head ;
  walk false f hooks (fun l (named : bool) =>
    k <- get_kind (Some l) ;
    if mem_kind k [KComma; KParenR] then ret (Stop, named)
    else if kind_eqb k KSquareL
    then p <- square_run f (Some l) hooks ; ret (Jump p, named)
    else if mem_kind k [KComment; KParenL; KTab; KNewLine; KSpace] then ret (Cont, named)
    else if kind_eqb k KFunc
    then p <- func_run f ff_p (Some l) hooks ; ret (Jump p, named)
    else if mem_kind k [KRaw; KParamType; KParamName]
    then if (count =? 1)%Z then do_set_kind (Some l) typeKind ;;; ret (Cont, named)
         else if negb named then do_set_kind (Some l) nameKind ;;; ret (Cont, true)
         else do_set_kind (Some l) typeKind ;;; ret (Cont, named)
    else ret (Cont, named)) head false
  end

with func_run (fuel : nat) (r : func_flags) (head : ptr) (hooks : list hook) {struct fuel} : M ptr :=
  match fuel with O => out | S f =>
  (* kind_resetter_func.go:33-115 funcResetter.Run; the walk's extra variables
     are [foundFuncOrMethod] and [isMethod] *)
  if ff_param r then parameter_func f head hooks
  else if ff_iface r then general_func f head [KNewLine] hooks
  else
    tmp <- is_temporary_func f head ;
    if (tmp : bool) then general_func f head [KNewLine] hooks
    else
      let main := fun (head : ptr) =>
        walk false f hooks (fun l (fm : bool * bool) =>
          k <- get_kind (Some l) ;
          let '(go_on, fm) :=
            if fst fm then (true, fm)
            else if kind_eqb k KRaw then (true, (true, snd fm))
            else if kind_eqb k KParenL then (true, (true, true))
            else (false, fm) in
          if negb go_on then ret (Cont, fm)
          else if snd fm
          then p <- paren_run f false true (Some l) hooks ; ret (Jump p, (fst fm, false))
          else if kind_eqb k KNewLine then ret (Stop, fm)
          else p <- general_func f head [KNewLine] hooks ; ret (Jump p, fm))
          head (ff_notmethod r, false) in
      if ff_lead r
      then k <- get_kind head ;
           handle_hook head hooks ;;;
           n <- get_next head ;
           if negb (kind_eqb k KFunc) then ret n else main n
      else main head
  end

with general_func (fuel : nat) (head : ptr) (returnKinds : list kind) (hooks : list hook) {struct fuel} : M ptr :=
  match fuel with O => out | S f =>
  (* kind_resetter_func.go:118-194 handleGeneralFunc; the walk's extra variables
     are [isFuncNameAssigned] and [isFuncParamHandled] *)
  let isReturnKind := match returnKinds with
                      | [] => cset_new [KNewLine]
                      | _ => cset_new returnKinds
                      end in
  k <- get_kind head ;
  head <- (if kind_eqb k KFunc then handle_hook head hooks ;;; get_next head else ret head) ;
  walk false f hooks (fun l (v : bool * bool) =>
    let '(named, param) := v in
    k <- get_kind (Some l) ;
    if contain isReturnKind k then ret (if (param : bool) then Stop else Cont, v)
    else if kind_eqb k KComment then ret (Cont, v)
    else if kind_eqb k KRaw
    then if negb named then do_set_kind (Some l) KFuncName ;;; ret (Cont, (true, param))
         else ret (Cont, v)
    else if kind_eqb k KSpace
    then if named && param
         then p <- single_return f (Some l) hooks ; ret (Jump p, v)
         else ret (Cont, v)
    else if kind_eqb k KParenL
    then p <- paren_run f false false (Some l) hooks ; ret (Jump p, (named, true))
    else if kind_eqb k KCurlyL
    then p <- curly_run f (Some l) hooks ; ret (Jump p, v)
    else if kind_eqb k KSquareL
    then p <- square_run f (Some l) hooks ; ret (Jump p, (named, true))
    else ret (Cont, v)) head (false, false)
  end

with parameter_func (fuel : nat) (head : ptr) (hooks : list hook) {struct fuel} : M ptr :=
  match fuel with O => out | S f =>
  (* kind_resetter_func.go:215-225 handleParameterFunc *)
  n <- general_func f head [KComma; KParenR; KNewLine] hooks ;
  k <- get_kind n ;
  if kind_eqb k KParenR then handle_hook n hooks ;;; get_next n else ret n
  end

with single_return (fuel : nat) (head : ptr) (hooks : list hook) {struct fuel} : M ptr :=
  match fuel with O => out | S f =>
  (* kind_resetter_func.go:228-272 handleSingleReturnType *)
  k <- get_kind head ;
  if negb (kind_eqb k KSpace) then handle_hook head hooks ;;; get_next head
  else
    head <- get_next head ;
    found <- find_next f head [KComment] opt_rev hooks ;
    k <- get_kind found ;
    if kind_eqb k KParenL then paren_run f false false head hooks
    else if kind_eqb k KFunc then parameter_func f head hooks
    else
      r <- iterM f (fun l (buf : list ptr) =>
             handle_hook (Some l) hooks ;;;
             k <- get_kind (Some l) ;
             if mem_kind k [KNewLine; KSpace; KCurlyL] then ret (buf, false)
             else if kind_eqb k KComment then ret (buf, true)
             else ret (append_unrepeatable buf [Some l], true)) head [] ;
      finish_combine KParamType (fst r) ;;;
      ret (snd r)
  end.

(** kind_resetter_all.go:108-190 [paramResetter.Run] *)
Definition param_run (fuel : nat) (skip : bool) (resetKind : kind) (returnKinds : list kind)
    (head : ptr) (hooks : list hook) : M ptr :=
  match returnKinds with
  | [] => handle_hook head hooks ;;; get_next head
  | _ :: _ =>
    (fun s => Ok (mkSt (s_heap s) [], tt)) ;;;            (* var buf, kind_resetter_all.go:121 *)
    let appended := hooks ++ [buf_hook] in
    r <- walk false fuel hooks (fun l (_ : unit) =>
           k <- get_kind (Some l) ;
           if contain (cset_new returnKinds) k then ret (Stop, tt)
           else if kind_eqb k KParenL
           then p <- paren_run fuel skip false (Some l) appended ; ret (Jump p, tt)
           else if kind_eqb k KCurlyL
           then p <- curly_run fuel (Some l) appended ; ret (Jump p, tt)
           else if kind_eqb k KSquareL
           then p <- square_run fuel (Some l) appended ; ret (Jump p, tt)
           else if kind_eqb k KFunc
           then p <- func_run fuel ff_n (Some l) hooks ; ret (Jump p, tt)
           else if kind_eqb k KComment then ret (Cont, tt)
           else if negb skip
           then (fun s => Ok (buf_hook (Some l) s, tt)) ;;; ret (Cont, tt)
           else ret (Cont, tt)) head tt ;
    (fun s => finish_combine resetKind (s_buf s) s) ;;;   (* defer *)
    ret r
  end.

(** kind_resetter_type.go:153-167 [isThisLineFunction] *)
Definition is_line_function (head : ptr) : M bool :=
  r <- scanM head (fun h l (b : bool) =>
         let k := kind_of h (Some l) in
         if kind_eqb k KParenL then (true, false)
         else if kind_eqb k KNewLine then (b, false)
         else (b, true)) false ;
  ret (fst r).

(** kind_resetter_type.go:99-151 [interfaceResetter.Run] *)
Definition interface_run (fuel : nat) (head : ptr) (hooks : list hook) : M ptr :=
  head <- find_next fuel head [KCurlyL] opt0 hooks ;
  walk false fuel hooks (fun l (_ : unit) =>
    k <- get_kind (Some l) ;
    if kind_eqb k KCurlyR then ret (Stop, tt)
    else if mem_kind k [KTab; KComment; KNewLine; KSpace; KCurlyL] then ret (Cont, tt)
    else
      b <- is_line_function (Some l) ;
      if (b : bool) then p <- func_run fuel ff_i (Some l) hooks ; ret (Jump p, tt)
      else
        (if kind_eqb k KRaw then do_set_kind (Some l) KTypeName else ret tt) ;;;
        p <- find_next fuel (Some l) [KNewLine; KCurlyR] opt_outside hooks ;
        ret (Jump p, tt)) head tt.

(** kind_resetter_type.go:274-320 [getRowNameCount]; variables rawCount,
    hasComma, hasSpaceOrAfterRaw, cacheNameCount, nameCount *)
Record rnc := mkRnc { rc_raw : Z; rc_comma : bool; rc_sp : bool; rc_cache : Z; rc_names : Z }.
Definition rnc_step (k : kind) (v : rnc) : rnc * bool :=
  let '(mkRnc raw comma sp cache names) := v in
  if kind_eqb k KNewLine
  then (mkRnc raw comma sp cache (if sp then cache else names), false)
  else if mem_kind k [KComment; KTab] then (v, true)
  else if kind_eqb k KRaw then (mkRnc (raw + 1)%Z comma sp cache names, true)
  else if kind_eqb k KSpace
  then if negb (raw =? 0)%Z
       then (mkRnc raw comma true (if negb comma && (cache =? 0)%Z then cache + 1 else cache)%Z names, true)
       else (v, true)
  else if kind_eqb k KComma
  then let cache := (if (cache =? 0)%Z then cache + 1 else cache)%Z in
       let cache := (cache + 1)%Z in
       (mkRnc raw true sp cache cache, true)
  else (mkRnc raw comma sp cache (if sp then cache else names), false).
Definition row_name_count (head : ptr) : M Z :=
  r <- scanM head (fun h l v => rnc_step (kind_of h (Some l)) v) (mkRnc 0 false false 0 0)%Z ;
  ret (rc_names (fst r)).

(** kind_resetter_type.go:218-272 [handleStructRow]; the walk's extra variable
    is [paramNameCount] *)
Definition struct_row (fuel : nat) (head : ptr) (hooks : list hook) : M ptr :=
  count <- row_name_count head ;
  walk false fuel hooks (fun l (count : Z) =>
    k <- get_kind (Some l) ;
    if kind_eqb k KNewLine then ret (Stop, count)
    else if mem_kind k [KComment; KNewLine; KTab; KSpace; KComma] then ret (Cont, count)
    else if kind_eqb k KRaw
    then if negb (count =? 0)%Z
         then do_set_kind (Some l) KParamName ;;; ret (Cont, (count - 1)%Z)
         else do_set_kind (Some l) KParamType ;;; ret (Cont, count)
    else if kind_eqb k KFunc
    then p <- func_run fuel ff_p (Some l) [raw_hook] ; ret (Jump p, count)
    else ret (Cont, count)) head count.

(** kind_resetter_type.go:174-209 [structResetter.Run] *)
Definition struct_run (fuel : nat) (head : ptr) (hooks : list hook) : M ptr :=
  m <- find_next fuel head [KCurlyL] opt0 hooks ;
  head <- get_next m ;
  walk false fuel hooks (fun l (_ : unit) =>
    k <- get_kind (Some l) ;
    if kind_eqb k KCurlyR then ret (Stop, tt)
    else if mem_kind k [KComment; KCurlyL; KNewLine] then ret (Cont, tt)
    else p <- struct_row fuel (Some l) hooks ; ret (Jump p, tt)) head tt.

(** kind_resetter_type.go:13-94 [typeResetter.Run]; the walk's extra variables
    are [isTypeNameAssigned] and [isSpaceAfterTypeName] *)
Definition type_run (fuel : nat) (head : ptr) (hooks : list hook) : M ptr :=
  k <- get_kind head ;
  if negb (kind_eqb k KType) then handle_hook head hooks ;;; get_next head
  else walk true fuel hooks (fun l (v : bool * bool) =>
    let '(named, spaced) := v in
    k <- get_kind (Some l) ;
    if negb named
    then if mem_kind k [KCurlyR; KNewLine] then ret (Stop, v)
         else if kind_eqb k KRaw then do_set_kind (Some l) KTypeName ;;; ret (Cont, (true, spaced))
         else ret (Cont, v)
    else if negb spaced
    then if kind_eqb k KSpace then ret (Cont, (named, true))
         else if kind_eqb k KSquareL
         then p <- square_run fuel (Some l) hooks ; ret (Jump p, v)
         else ret (Cont, v)
    else if kind_eqb k KComment then ret (Cont, v)
    else if kind_eqb k KInterface
    then p <- interface_run fuel (Some l) hooks ; ret (Jump p, v)
    else if kind_eqb k KStruct
    then p <- struct_run fuel (Some l) hooks ; ret (Jump p, v)
    else if kind_eqb k KFunc
    then p <- func_run fuel ff_n (Some l) hooks ; ret (Jump p, v)
    else if kind_eqb k KRaw
    then p <- param_run fuel false KParamType [KNewLine] (Some l) hooks ; ret (Jump p, v)
    else if kind_eqb k KSquareL
    then p <- square_run fuel (Some l) hooks ; ret (Jump p, v)
    else ret (Cont, v)) head (false, false).

(** kind_resetter_all.go:9-17 [resetKind] *)
Definition reset_kind (fuel : nat) (n : ptr) : M ptr :=
  k <- get_kind n ;
  if kind_eqb k KFunc then func_run fuel ff_l n []
  else if kind_eqb k KType then type_run fuel n []
  else ret None.

(** Enough fuel for any chain in the heap (proved: see ResetProofs). *)
Definition reset_fuel (h : heap) : nat := 8 * S (length h).
