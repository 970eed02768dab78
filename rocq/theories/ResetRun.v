(** Every resetter terminates and keeps the invariant. *)
From Verif Require Export ResetWp.

Definition run_kinds : list kind := [KNewLine; KSpace; KCurlyL].
(** Nodes whose kind the parameter resetter overwrites. *)
Definition param_kinds : list kind := [KRaw; KParamType; KParamName].

(** The kinds given out: the receiver kinds only if receivers are looked for. *)
Definition okk (okr : bool) : list kind := if okr then refined else [KFuncName; KTypeName; KParamName; KParamType].
Lemma okk_refined okr k : k ∈ okk okr -> k ∈ refined.
Proof.
  destruct okr; [done|]. cbn [okk]. unfold refined. rewrite !elem_of_cons. intros [->|[->|[->|[->|[]%elem_of_nil]]]]; auto 8.
Qed.
Lemma okk_base okr k : k ∈ okk false -> k ∈ okk okr.
Proof. destruct okr; [|done]. apply okk_refined. Qed.
(** ** The callbacks, named *)
Definition find_step (target : list kind) (o : find_opt) (hooks : list hook) (l : loc) (c : Z * Z * Z) : M ((Z * Z * Z) * bool) :=
  handle_hook (Some l) hooks ;;;
  k <- get_kind (Some l) ;
  let c := count_step k c in
  ret (c, find_decide target o k c).
Definition pr_sw (f : nat) (isReceiver : bool) (hooks : list hook) (l : loc) (_ : unit) : M (act * unit) :=
  k <- get_kind (Some l) ;
  if kind_eqb k KParenR then ret (Stop, tt)
  else if mem_kind k [KComment; KComma; KParenL; KTab; KNewLine; KSpace] then ret (Cont, tt)
  else p <- paren_param f isReceiver (Some l) hooks ; ret (Jump p, tt).
Definition pp_sw (f : nat) (nameKind typeKind : kind) (count : Z) (hooks : list hook) (l : loc) (named : bool) : M (act * bool) :=
  k <- get_kind (Some l) ;
  if mem_kind k [KComma; KParenR] then ret (Stop, named)
  else if kind_eqb k KSquareL
  then p <- square_run f (Some l) hooks ; ret (Jump p, named)
  else if mem_kind k [KComment; KParenL; KTab; KNewLine; KSpace] then ret (Cont, named)
  else if kind_eqb k KFunc
  then p <- func_run f ff_p (Some l) hooks ; ret (Jump p, named)
  else if mem_kind k [KRaw; KParamType; KParamName]
  then if (count =? 1)%Z then do_set_kind (Some l) typeKind ;;; ret (Cont, named)
       else if negb named then do_set_kind (Some l) nameKind ;;; ret (Cont, true)
       else do_set_kind (Some l) typeKind ;;; ret (Cont, named)
  else ret (Cont, named).
Definition fr_sw (f : nat) (head : ptr) (hooks : list hook) (l : loc) (fm : bool * bool) : M (act * (bool * bool)) :=
  k <- get_kind (Some l) ;
  let '(go_on, fm) :=
    if fst fm then (true, fm)
    else if kind_eqb k KRaw then (true, (true, snd fm))
    else if kind_eqb k KParenL then (true, (true, true))
    else (false, fm) in
  if negb go_on then ret (Cont, fm)
  else if snd fm
  then p <- paren_run f false true (Some l) hooks ; ret (Jump p, (fst fm, false))
  else if kind_eqb k KNewLine then ret (Stop, fm)
  else p <- general_func f head [KNewLine] hooks ; ret (Jump p, fm).
Definition fr_main (f : nat) (r : func_flags) (hooks : list hook) (head : ptr) : M ptr :=
  walk false f hooks (fr_sw f head hooks) head (ff_notmethod r, false).
Definition gf_sw (f : nat) (rk : cset kind) (hooks : list hook) (l : loc) (v : bool * bool) : M (act * (bool * bool)) :=
  let '(named, param) := v in
  k <- get_kind (Some l) ;
  if contain rk k then ret (if (param : bool) then Stop else Cont, v)
  else if kind_eqb k KComment then ret (Cont, v)
  else if kind_eqb k KRaw
  then if negb named then do_set_kind (Some l) KFuncName ;;; ret (Cont, (true, param))
       else ret (Cont, v)
  else if kind_eqb k KSpace
  then if named && param
       then p <- single_return f (Some l) hooks ; ret (Jump p, v)
       else ret (Cont, v)
  else if kind_eqb k KParenL
  then p <- paren_run f false false (Some l) hooks ; ret (Jump p, (named, true))
  else if kind_eqb k KCurlyL
  then p <- curly_run f (Some l) hooks ; ret (Jump p, v)
  else if kind_eqb k KSquareL
  then p <- square_run f (Some l) hooks ; ret (Jump p, (named, true))
  else ret (Cont, v).
Definition sr_step (hooks : list hook) (l : loc) (buf : list ptr) : M (list ptr * bool) :=
  handle_hook (Some l) hooks ;;;
  k <- get_kind (Some l) ;
  if mem_kind k [KNewLine; KSpace; KCurlyL] then ret (buf, false)
  else if kind_eqb k KComment then ret (buf, true)
  else ret (append_unrepeatable buf [Some l], true).

Lemma paren_run_eq f skip rcv head hooks : paren_run (S f) skip rcv head hooks =
  (if skip then skip_nest f head KParenL KParenR hooks
  else k <- get_kind head ;
    if negb (kind_eqb k KParenL) then handle_hook head hooks ;;; get_next head
    else walk false f hooks (pr_sw f rcv hooks) head tt).
Proof. reflexivity. Qed.
Lemma paren_param_eq f rcv head hooks : paren_param (S f) rcv head hooks =
  (count <- valid_param_count head ;
  walk false f hooks (pp_sw f (if rcv then KMethodReceiverName else KParamName) (if rcv then KMethodReceiverType else KParamType) count hooks) head false).
Proof. reflexivity. Qed.
Lemma func_run_eq f r head hooks : func_run (S f) r head hooks =
  (if ff_param r then parameter_func f head hooks
  else if ff_iface r then general_func f head [KNewLine] hooks
  else
    tmp <- is_temporary_func f head ;
    if (tmp : bool) then general_func f head [KNewLine] hooks
    else if ff_lead r
      then k <- get_kind head ;
           handle_hook head hooks ;;;
           n <- get_next head ;
           if negb (kind_eqb k KFunc) then ret n else fr_main f r hooks n
      else fr_main f r hooks head).
Proof. reflexivity. Qed.
Lemma general_func_eq f head rk hooks : general_func (S f) head rk hooks =
  (k <- get_kind head ;
  head <- (if kind_eqb k KFunc then handle_hook head hooks ;;; get_next head else ret head) ;
  walk false f hooks (gf_sw f (match rk with [] => cset_new [KNewLine] | _ => cset_new rk end) hooks) head (false, false)).
Proof. reflexivity. Qed.
Lemma parameter_func_eq f head hooks : parameter_func (S f) head hooks =
  (n <- general_func f head [KComma; KParenR; KNewLine] hooks ;
  k <- get_kind n ;
  if kind_eqb k KParenR then handle_hook n hooks ;;; get_next n else ret n).
Proof. reflexivity. Qed.
Lemma single_return_eq f head hooks : single_return (S f) head hooks =
  (k <- get_kind head ;
  if negb (kind_eqb k KSpace) then handle_hook head hooks ;;; get_next head
  else
    head <- get_next head ;
    found <- find_next f head [KComment] opt_rev hooks ;
    k <- get_kind found ;
    if kind_eqb k KParenL then paren_run f false false head hooks
    else if kind_eqb k KFunc then parameter_func f head hooks
    else
      r <- iterM f (sr_step hooks) head [] ;
      finish_combine KParamType (fst r) ;;;
      ret (snd r)).
Proof. reflexivity. Qed.

(** The nodes [vs] follow each other from [p] on; [r] comes after the last. *)
Notation nseg := NodeChain.nseg.

Section run.
Context (h0 : heap) (ls : list loc) (ND : NoDup ls).
Context (Hval : forall a, a ∈ ls -> valid h0 a).
Context (Hout : forall a b, a ∉ ls -> next_of h0 (Some a) = Some b -> b ∉ ls).
Context (okr : bool) (lo : nat) (K : heap -> Prop) (Kb : list ptr -> Prop).
Notation from := (from ls).
Notation base := (base h0 ls).
Notation N i := (length ls - i).

Context (HKk : forall h p k, base h -> K h -> from lo p -> k ∈ okk okr -> kind_of h p ∈ param_kinds -> K (set_kind h p k)).
(** Merging a run of nodes, as handleSingleReturnType does. *)
Context (HKm : forall (h : heap) p vs r h' b b', base h -> K h -> from lo p -> nseg h p vs r ->
  Forall (fun l => l ∈ ls /\ kind_of h (Some l) ∉ run_kinds) vs -> (r = None \/ kind_of h r ∈ run_kinds) ->
  finish_combine KParamType (map Some (filter (fun l => kind_of h (Some l) <> KComment) vs)) (mkSt h b) = Ok (mkSt h' b', tt) ->
  base h' -> K h').

Definition inv (s : st) : Prop := base (s_heap s) /\ K (s_heap s) /\ Kb (s_buf s).
(** Links are the same, and kinds too, except that Raw may have become ParamType. *)
Definition soft (s s' : st) : Prop :=
  (forall q, next_of (s_heap s') q = next_of (s_heap s) q) /\
  (forall q, kind_of (s_heap s') q = kind_of (s_heap s) q \/ (kind_of (s_heap s) q = KRaw /\ kind_of (s_heap s') q = KParamType)).
Definition hook_ok (hk : hook) : Prop := forall n s, inv s -> from lo n -> inv (hk n s) /\ soft s (hk n s).

Lemma soft_refl s : soft s s.
Proof. split; auto. Qed.
Lemma soft_trans s1 s2 s3 : soft s1 s2 -> soft s2 s3 -> soft s1 s3.
Proof.
  intros [A1 B1] [A2 B2]. split; intros q; [by rewrite A2|]. destruct (B2 q) as [->|[E2 ->]]; [apply B1|].
  destruct (B1 q) as [E|[? E]]; [right; by rewrite <- E|]. right. done.
Qed.
Lemma soft_kind s s' q : soft s s' -> kind_of (s_heap s) q <> KRaw -> kind_of (s_heap s') q = kind_of (s_heap s) q.
Proof. intros [_ S1] H. destruct (S1 q) as [?|[? _]]; done. Qed.
Lemma soft_kind_ne s s' q k : soft s s' -> k <> KParamType -> kind_of (s_heap s) q <> k -> kind_of (s_heap s') q <> k.
Proof. intros [_ S1] H D. destruct (S1 q) as [->|[_ ->]]; [done|congruence]. Qed.

Lemma wp_hooks hooks n s (Q : unit -> st -> Prop) : Forall hook_ok hooks -> inv s -> from lo n ->
  (forall s', inv s' -> soft s s' -> Q tt s') -> wp (handle_hook n hooks) Q s.
Proof.
  intros F I Fn HQ. unfold wp, handle_hook.
  assert (G : inv (fold_left (fun s hk => hk n s) hooks s) /\ soft s (fold_left (fun s hk => hk n s) hooks s)).
  { clear HQ. revert s I. induction F as [|hk hooks Hk F IH]; intros s I; cbn [fold_left]; [split; [done|apply soft_refl]|].
    destruct (Hk n s I Fn) as [I1 S1]. destruct (IH _ I1) as [I2 S2]. split; [done|]. by eapply soft_trans. }
  apply HQ; apply G.
Qed.
Lemma inv_base s : inv s -> base (s_heap s).
Proof. apply proj1. Qed.

Lemma raw_hook_ok : hook_ok raw_hook.
Proof.
  intros n s (B & HK & HB) Fn. unfold raw_hook. destruct (kind_eqb (kind_of (s_heap s) n) KRaw) eqn:E.
  - apply kind_eqb_true in E. cbn [s_heap s_buf]. split; [split; [|split]|].
    + eapply base_set_kind; [done|done|exact Fn|]. apply mem_kind_true. reflexivity.
    + apply HKk; [done|done|done|apply okk_base, mem_kind_true; reflexivity|rewrite E; apply mem_kind_true; reflexivity].
    + done.
    + split; cbn [s_heap].
      * intros [q|]; [|done]. apply (links_set_kind (s_heap s) n KParamType q).
      * intros [q|]; [|by left]. destruct n as [a|]; [|by left].
        rewrite kind_set_kind by (eapply base_valid; [done|done|]; eapply from_in; [exact Fn|done]).
        case_decide; [subst; by right|by left].
  - split; [done|]. apply soft_refl.
Qed.

(** ** Walks *)
Lemma wp_walk_from {X} (J : X -> Prop) (skip : bool) i p hooks (sw : loc -> X -> M (act * X)) (w : wl X) fuel s (R : loc -> st -> Prop) :
  Forall hook_ok hooks -> inv s -> lo <= i -> from i p -> N i <= fuel -> J (w_x w) ->
  (forall l j x s', ls !! j = Some l -> i <= j -> inv s' -> J x ->
     (Some l = p -> kind_of (s_heap s) p <> KRaw -> kind_of (s_heap s') p = kind_of (s_heap s) p) ->
     wp (sw l x) (fun ax s'' => inv s'' /\ J (snd ax) /\ (fst ax = Stop -> R l s'')) s') ->
  wp (iterM fuel (walk_body skip hooks sw) p w) (fun r s' => inv s' /\ from i (snd r) /\ forall l, snd r = Some l -> R l s') s.
Proof.
  intros FH I Hlo F Lf HJ HS.
  destruct p as [a|]; [|cbn; destruct fuel; cbn; by split].
  destruct F as (ja & La & Ea).
  eapply (wp_iterM h0 ls (fun q (w : wl X) s' => inv s' /\ J (w_x w) /\ (q = Some a -> kind_of (s_heap s) (Some a) <> KRaw -> kind_of (s_heap s') (Some a) = kind_of (s_heap s) (Some a)))
    _ ja).
  - intros q ? s' [? _]. by apply inv_base.
  - intros w' s' [? _]. cbn [snd]. done.
  - clear w HJ. intros l j w s1 El Lj (I1 & HJ & Hk). unfold walk_body.
    apply wp_bind, wp_hooks; [done|done|by exists j; split; [lia|]|]. intros s2 I2 S2.
    assert (Hk2 : Some l = Some a -> kind_of (s_heap s) (Some a) <> KRaw -> kind_of (s_heap s2) (Some a) = kind_of (s_heap s) (Some a)).
    { intros E D. rewrite <- (Hk E D). apply soft_kind; [done|]. by rewrite (Hk E D). }
    assert (Nx : forall (s3 : st) (w' : wl X), inv s3 -> J (w_x w') -> base (s_heap s3) /\ inv s3 /\ J (w_x w') /\ (next_of (s_heap s3) (Some l) = Some a -> kind_of (s_heap s) (Some a) <> KRaw -> kind_of (s_heap s3) (Some a) = kind_of (s_heap s) (Some a))).
    { intros s3 w' I3 HJ'. split; [by apply inv_base|split; [done|]]. split; [done|]. intros E _. exfalso. destruct (b_fwd _ _ _ (inv_base s3 I3) j l a El E) as (q & Lq & Eq).
      assert (q = ja) by (by eapply at_inj). lia. }
    destruct (w_skip w); [by apply wp_ret, Nx|]. destruct (negb _ && negb _); [by apply wp_ret, Nx|]. destruct (negb _ && skip); [by apply wp_ret, Nx|].
    apply wp_bind. eapply wp_mono; [apply (HS l j); [done|lia|done|done|done]|]. intros ax s3 (I3 & HJ3 & HR). cbv beta.
    destruct (fst ax) eqn:Ea1; apply wp_ret; cbn [fst snd]; [|by apply Nx..].
    split; [done|]. split; [exists j; split; [lia|done]|]. intros l' [= <-]. by apply HR.
  - exact (Nat.le_refl ja).
  - by apply from_at.
  - lia.
  - done.
Qed.

Lemma wp_walkJ {X} (J : X -> Prop) (skip : bool) i p hooks (sw : loc -> X -> M (act * X)) (x : X) fuel s (R : loc -> st -> Prop) :
  Forall hook_ok hooks -> inv s -> lo <= i -> from i p -> N i <= fuel -> J x ->
  (forall l j x s', ls !! j = Some l -> i <= j -> inv s' -> J x ->
     (Some l = p -> kind_of (s_heap s) p <> KRaw -> kind_of (s_heap s') p = kind_of (s_heap s) p) ->
     wp (sw l x) (fun ax s'' => inv s'' /\ J (snd ax) /\ (fst ax = Stop -> R l s'')) s') ->
  wp (walk skip fuel hooks sw p x) (fun r s' => inv s' /\ from i r /\ forall l, r = Some l -> R l s') s.
Proof.
  intros FH I Hlo F Lf HJ HS. unfold walk. apply wp_bind. eapply wp_mono; [by apply (wp_walk_from J skip i p hooks sw _ fuel s R)|].
  intros r s' H. by apply wp_ret.
Qed.
Lemma wp_walk {X} (skip : bool) i p hooks (sw : loc -> X -> M (act * X)) (x : X) fuel s (R : loc -> st -> Prop) :
  Forall hook_ok hooks -> inv s -> lo <= i -> from i p -> N i <= fuel ->
  (forall l j x s', ls !! j = Some l -> i <= j -> inv s' ->
     (Some l = p -> kind_of (s_heap s) p <> KRaw -> kind_of (s_heap s') p = kind_of (s_heap s) p) ->
     wp (sw l x) (fun ax s'' => inv s'' /\ (fst ax = Stop -> R l s'')) s') ->
  wp (walk skip fuel hooks sw p x) (fun r s' => inv s' /\ from i r /\ forall l, r = Some l -> R l s') s.
Proof.
  intros FH I Hlo F Lf HS. apply (wp_walkJ (fun _ => True)); try done. intros l j y s' El Lj I' _ Hk.
  eapply wp_mono; [by apply (HS l j)|]. intros ax s'' [? ?]. done.
Qed.

(** ** The helpers *)
Lemma find_next_ok i p t o hooks fuel s : Forall hook_ok hooks -> inv s -> lo <= i -> from i p -> N i <= fuel ->
  wp (find_next fuel p t o hooks) (fun r s' => inv s' /\ from i r) s.
Proof.
  intros FH I Hlo F Lf. unfold find_next. apply wp_bind.
  eapply (wp_iterM h0 ls (fun q _ s' => inv s') _ i).
  - intros q w s'. apply inv_base.
  - intros c s' I'. apply wp_ret. done.
  - intros l j c s' El Lj I'. apply wp_bind, wp_hooks; [done|done|exists j; split; [lia|done]|]. intros s2 I2 _.
    apply wp_bind, wp_get_kind, wp_ret. cbn [fst snd]. destruct (find_decide _ _ _ _); [split; [by apply inv_base|done]|].
    apply wp_ret. cbn [snd]. split; [done|]. exists j. done.
  - exact (Nat.le_refl i).
  - done.
  - done.
  - done.
Qed.
Lemma skip_nest_ok i p a b hooks fuel s : Forall hook_ok hooks -> inv s -> lo <= i -> from i p -> N i <= fuel ->
  wp (skip_nest fuel p a b hooks) (fun r s' => inv s' /\ from i r) s.
Proof.
  intros FH I Hlo F Lf. unfold skip_nest. apply wp_bind, wp_get_kind, wp_bind.
  eapply (wp_mono _ (fun n s' => inv s' /\ from i n)).
  { destruct (kind_eqb _ _); [|by apply wp_ret].
    apply wp_bind, wp_hooks; [done|done|by eapply from_mono|]. intros s1 I1 _.
    apply wp_bind. eapply wp_mono; [by apply (find_next_ok i)|]. intros m s2 [I2 F2]. apply wp_get_next. split; [done|].
    eapply base_next'; [by apply inv_base|done]. }
  intros n s1 [I1 F1]. cbv beta. apply wp_bind.
  eapply (wp_iterM h0 ls (fun q _ s' => inv s') _ i).
  - intros q w s'. apply inv_base.
  - intros c s' I'. apply wp_ret. done.
  - intros l j c s' El Lj I'. apply wp_bind, wp_hooks; [done|done|exists j; split; [lia|done]|]. intros s2 I2 _.
    apply wp_bind, wp_get_kind. assert (B2 : base (s_heap s2)) by (by apply inv_base).
    destruct (kind_eqb _ _); [by apply wp_ret|]. destruct (kind_eqb _ b); [|by apply wp_ret].
    apply wp_ret. cbn [fst snd]. destruct (negb _); [done|]. apply wp_ret. split; [done|]. exists j. done.
  - exact (Nat.le_refl i).
  - done.
  - done.
  - done.
Qed.
(** Without hooks nothing changes; no lower bound is needed. *)
Lemma find_next_pure i p t o fuel (s : st) : base (s_heap s) -> from i p -> N i <= fuel ->
  wp (find_next fuel p t o []) (fun r s' => s' = s /\ from i r) s.
Proof.
  intros B F Lf. unfold find_next. apply wp_bind.
  eapply (wp_iterM h0 ls (fun q _ s' => s' = s) _ i).
  - intros q w s' ->. done.
  - intros c s' I'. apply wp_ret. done.
  - intros l j c s' El Lj ->. apply wp_bind. unfold wp at 1, handle_hook. cbn [fold_left].
    apply wp_bind, wp_get_kind, wp_ret. cbn [fst snd]. destruct (find_decide _ _ _ _); [done|].
    apply wp_ret. cbn [snd]. split; [done|]. exists j. done.
  - exact (Nat.le_refl i).
  - done.
  - done.
  - done.
Qed.
Lemma is_temp_ok i p fuel (s : st) : base (s_heap s) -> from i p -> N i <= fuel ->
  wp (is_temporary_func fuel p) (fun _ s' => s' = s) s.
Proof.
  intros B F Lf. unfold is_temporary_func. apply wp_bind. eapply wp_mono; [by apply (find_next_pure i)|].
  intros r s' [-> Fr]. cbv beta. apply wp_bind, wp_get_kind. destruct (negb _); [by apply wp_ret|].
  apply wp_bind, wp_get_next, wp_bind, wp_get_kind, wp_ret. done.
Qed.
Lemma set_kind_ok p k s (Q : unit -> st -> Prop) : inv s -> from lo p -> k ∈ okk okr -> kind_of (s_heap s) p ∈ param_kinds ->
  (forall s', inv s' -> Q tt s') -> wp (do_set_kind p k) Q s.
Proof.
  intros (B & HK & HB) F R P HQ. unfold wp, do_set_kind. apply HQ. split; [|split]; cbn [s_heap s_buf]; [|by apply HKk|done].
  eapply base_set_kind; [done|done|exact F|by eapply okk_refined].
Qed.

(** ** Single return types: the run of nodes that is merged *)
Lemma single_iter hooks i p fuel s : Forall hook_ok hooks -> inv s -> lo <= i -> from i p -> N i <= fuel ->
  wp (iterM fuel (sr_step hooks) p [])
    (fun br s' => inv s' /\ from i (snd br) /\ exists vs, nseg (s_heap s') p vs (snd br) /\
       Forall (fun l => l ∈ ls /\ kind_of (s_heap s') (Some l) ∉ run_kinds) vs /\
       (snd br = None \/ kind_of (s_heap s') (snd br) ∈ run_kinds) /\
       fst br = map Some (filter (fun l => kind_of (s_heap s') (Some l) <> KComment) vs)) s.
Proof.
  intros FH I Hlo F Lf.
  set (D := fun (s' : st) (buf : list ptr) vs => Forall (fun l => l ∈ ls /\ kind_of (s_heap s') (Some l) ∉ run_kinds) vs /\
       buf = map Some (filter (fun l => kind_of (s_heap s') (Some l) <> KComment) vs)).
  assert (Soft : forall (s1 s2 : st) q vs r buf, soft s1 s2 -> nseg (s_heap s1) q vs r -> D s1 buf vs -> nseg (s_heap s2) q vs r /\ D s2 buf vs).
  { intros s1 s2 q vs r buf S12 Sg [D1 D2]. split; [|split].
    - eapply nseg_frame; [|exact Sg]. intros x _. apply S12.
    - eapply Forall_impl; [exact D1|]. intros l [Hl Hk]. split; [done|]. destruct (proj2 S12 (Some l)) as [->|[_ ->]]; [done|].
      apply mem_kind_false. reflexivity.
    - rewrite D2. f_equal. apply list_filter_iff. intros l. destruct (proj2 S12 (Some l)) as [->|[-> ->]]; done. }
  eapply (wp_iterM h0 ls (fun q buf s' => inv s' /\ exists vs, nseg (s_heap s') p vs q /\ D s' buf vs /\
            forall x, x ∈ vs -> forall j l, q = Some l -> ls !! j = Some l -> exists jx, jx < j /\ ls !! jx = Some x) _ i).
  - intros q w s' [? _]. by apply inv_base.
  - intros buf s' (I' & vs & Sg & [D1 D2] & _). split; [done|]. split; [done|]. exists vs. split; [done|]. split; [done|]. split; [by left|done].
  - intros l j buf s1 El Lj (I1 & vs & Sg & HD & Hord). unfold sr_step.
    apply wp_bind, wp_hooks; [done|done|exists j; split; [lia|done]|]. intros s2 I2 S2.
    destruct (Soft s1 s2 p vs (Some l) buf S2 Sg HD) as [Sg2 HD2].
    apply wp_bind, wp_get_kind.
    assert (Il : l ∈ ls) by (by eapply elem_of_list_lookup_2).
    assert (Sg3 : nseg (s_heap s2) p (vs ++ [l]) (next_of (s_heap s2) (Some l))).
    { apply nseg_app. exists (Some l). split; [done|]. simpl. done. }
    assert (Ord3 : forall x, x ∈ vs ++ [l] -> forall j' l', next_of (s_heap s2) (Some l) = Some l' -> ls !! j' = Some l' -> exists jx, jx < j' /\ ls !! jx = Some x).
    { intros x Hx j' l' Nl' El'. destruct (b_fwd _ _ _ (inv_base s2 I2) j l l' El Nl') as (q & Lq & Eq). assert (q = j') as -> by (by eapply at_inj).
      apply elem_of_app in Hx as [Hx|Hx%elem_of_list_singleton].
      - destruct (Hord x Hx j l eq_refl El) as (jx & Ljx & Ejx). exists jx. split; [lia|done].
      - subst x. by exists j. }
    destruct (mem_kind _ _) eqn:E1.
    { apply mem_kind_true in E1. apply wp_ret. cbn [fst snd]. split; [done|]. split; [by exists j|]. exists vs.
      destruct HD2 as [D1 D2]. split; [done|]. split; [done|]. split; [by right|done]. }
    apply mem_kind_false in E1.
    destruct HD2 as [D1 D2]. destruct (kind_eqb _ KComment) eqn:E2; apply wp_ret; cbn [fst snd]; (split; [by apply inv_base|split; [done|]]); exists (vs ++ [l]); (split; [done|]); (split; [|done]); split.
    + apply Forall_app. split; [done|]. by constructor.
    + apply kind_eqb_true in E2. rewrite filter_app, filter_cons_False by (intros H; done). rewrite filter_nil, app_nil_r. done.
    + apply Forall_app. split; [done|]. by constructor.
    + apply kind_eqb_false in E2. rewrite filter_app, filter_cons_True, filter_nil by done. rewrite map_app, <- D2. cbn [map].
      unfold append_unrepeatable. destruct (last buf) as [x|] eqn:L; [|by apply last_None in L as ->].
      rewrite bool_decide_eq_false_2; [done|]. intros ->. apply last_Some_elem_of in L. rewrite D2 in L. apply elem_of_list_fmap in L as (y & [= <-] & L).
      apply elem_of_list_filter in L as [_ L]. destruct (Hord l L j l eq_refl El) as (jx & Ljx & Ejx). assert (jx = j) by (by eapply at_inj). lia.
  - exact (Nat.le_refl i).
  - done.
  - done.
  - split; [done|]. exists []. split; [done|]. split; [split; [constructor|done]|]. intros x Hx. by apply elem_of_nil in Hx.
Qed.
Lemma nseg_from (h : heap) vs : forall i p r, base h -> from i p -> nseg h p vs r -> Forall (fun l => from i (Some l)) vs.
Proof.
  induction vs as [|v vs IH]; intros i p r B F Sg; [constructor|]. destruct Sg as [-> Sg]. constructor; [done|].
  apply (IH i (next_of h (Some v)) r B); [|done]. eapply base_next'; [exact B|done].
Qed.
Lemma nseg_sorted (h : heap) vs : forall i p r, base h -> from i p -> nseg h p vs r -> vs = [] \/
  exists v vs' j, vs = v :: vs' /\ ls !! j = Some v /\ i <= j /\ Forall (fun l => from (S j) (Some l)) vs'.
Proof.
  intros i p r B F Sg. destruct vs as [|v vs]; [by left|]. right. destruct Sg as [-> Sg]. destruct F as (j & Lj & Ej).
  exists v, vs, j. split_and!; [done..|]. eapply nseg_from; [exact B| |exact Sg]. eapply base_next; [eassumption|]. by apply from_at.
Qed.
Lemma filter_sorted (P : loc -> Prop) `{forall x, Decision (P x)} (h : heap) vs : forall i p r, base h -> from i p -> nseg h p vs r ->
  filter P vs = [] \/ exists v vs' j, filter P vs = v :: vs' /\ ls !! j = Some v /\ i <= j /\ Forall (fun l => from j (Some l)) vs'.
Proof.
  induction vs as [|v vs IH]; intros i p r B F Sg; [by left|]. destruct Sg as [-> Sg]. destruct F as (j & Lj & Ej).
  assert (F' : from (S j) (next_of h (Some v))) by (eapply base_next; [eassumption|by apply from_at]).
  rewrite filter_cons. case_decide.
  - right. exists v, (filter P vs), j. split_and!; [done..|]. apply Forall_forall. intros x [_ Hx]%elem_of_list_filter.
    pose proof (nseg_from h vs (S j) _ r B F' Sg) as G. rewrite Forall_forall in G. eapply from_mono; [|by apply G]. lia.
  - destruct (IH (S j) _ r B F' Sg) as [?|(w & ws & k & ? & ? & ? & ?)]; [by left|]. right. exists w, ws, k. split_and!; [done..|lia|done].
Qed.
Lemma finish_single i p vs r s b : inv s -> lo <= i -> from i p -> nseg (s_heap s) p vs r ->
  Forall (fun l => l ∈ ls /\ kind_of (s_heap s) (Some l) ∉ run_kinds) vs -> (r = None \/ kind_of (s_heap s) r ∈ run_kinds) ->
  b = map Some (filter (fun l => kind_of (s_heap s) (Some l) <> KComment) vs) ->
  wp (finish_combine KParamType b) (fun _ s' => inv s') s.
Proof.
  intros I Hlo F Sg D1 D2 ->. destruct s as [h b0]. pose proof I as (B & HK & HB). cbn [s_heap s_buf] in *.
  pose proof (HKm h p vs r) as HM. 
  destruct (filter_sorted (fun l => kind_of h (Some l) <> KComment) h vs i p r B F Sg) as [E|(v & vs' & j & E & Ej & Lj & Fj)].
  - rewrite E. cbn [map]. unfold wp, finish_combine. done.
  - destruct (finish_base h0 ls ND Hval Hout h v j (map Some vs') KParamType b0 B Ej) as (h' & E' & B' & _).
    { apply Forall_fmap. exact Fj. }
    { apply mem_kind_true. reflexivity. }
    unfold wp. rewrite E in HM |- *. cbn [map] in *. rewrite E'. split; [done|]. split; [|done].
    eapply HM; [done|done|by eapply from_mono|done|done|done|exact E'|done].
Qed.

(** ** The mutually recursive resetters *)
Definition post (i : nat) (r : ptr) (s : st) : Prop := inv s /\ from i r.
Definition PR f := forall skip rcv i p hooks s, (rcv = true -> okr = true) -> Forall hook_ok hooks -> inv s -> lo <= i -> from i p -> 6 * N i + 5 <= f ->
  wp (paren_run f skip rcv p hooks) (post i) s.
Definition PP f := forall rcv i p hooks s, (rcv = true -> okr = true) -> Forall hook_ok hooks -> inv s -> lo <= i -> from i p -> 6 * N i + 3 <= f ->
  wp (paren_param f rcv p hooks) (post i) s.
Definition FRp f := forall i p hooks s, Forall hook_ok hooks -> inv s -> lo <= i -> from i p -> kind_of (s_heap s) p = KFunc -> 6 * N i + 2 <= f ->
  wp (func_run f ff_p p hooks) (post i) s.
Definition fr_allowed (r : func_flags) : Prop := okr = true \/ ff_param r = true \/ ff_iface r = true \/ ff_notmethod r = true.
Definition FR f := forall r i p hooks s, fr_allowed r -> Forall hook_ok hooks -> inv s -> lo <= i -> from i p -> 6 * N i + 8 <= f ->
  wp (func_run f r p hooks) (post i) s.
Definition GF f := forall rk i p hooks s, Forall hook_ok hooks -> inv s -> lo <= i -> from i p ->
  6 * N i + (if decide (kind_of (s_heap s) p = KFunc) then 0 else 6) <= f ->
  wp (general_func f p rk hooks) (post i) s.
Definition PF f := forall i p hooks s, Forall hook_ok hooks -> inv s -> lo <= i -> from i p ->
  6 * N i + (if decide (kind_of (s_heap s) p = KFunc) then 1 else 7) <= f ->
  wp (parameter_func f p hooks) (post i) s.
Definition SR f := forall i p hooks s, Forall hook_ok hooks -> inv s -> lo <= i -> from i p -> 6 * N i + 5 <= f ->
  wp (single_return f p hooks) (post i) s.

Lemma from_lt i p l : from i p -> p = Some l -> i < length ls.
Proof. intros F ->. destruct F as (j & Lj & E). apply lookup_lt_Some in E. lia. Qed.
Lemma kind_some (h : heap) p k : kind_of h p = k -> k <> KNone -> exists l, p = Some l.
Proof. intros E D. destruct p as [l|]; [by eexists|]. by subst. Qed.

Lemma pr_sw_ok f rcv hooks i l j u s : PP f -> (rcv = true -> okr = true) -> Forall hook_ok hooks -> inv s -> lo <= i -> ls !! j = Some l -> i <= j ->
  (kind_of (s_heap s) (Some l) <> KParenL -> 6 * N j + 3 <= f) ->
  wp (pr_sw f rcv hooks l u) (fun ax s' => inv s' /\ (fst ax = Stop -> True)) s.
Proof.
  intros IH Hr FH I Hlo El Lj Lf. unfold pr_sw. apply wp_bind, wp_get_kind.
  destruct (kind_eqb _ KParenR); [by apply wp_ret|]. destruct (mem_kind _ _) eqn:E; [by apply wp_ret|].
  apply mem_kind_false in E. apply wp_bind. eapply wp_mono; [apply (IH rcv j (Some l) hooks s); [done|done|done|lia|by apply from_at|]|].
  - apply Lf. intros E'. apply E. rewrite E'. apply mem_kind_true. reflexivity.
  - intros r s' [I' _]. by apply wp_ret.
Qed.
Lemma pp_sw_ok f nk tk c hooks l j x s : FRp f -> Forall hook_ok hooks -> inv s -> lo <= j -> ls !! j = Some l -> nk ∈ okk okr -> tk ∈ okk okr ->
  6 * N j + 2 <= f -> wp (pp_sw f nk tk c hooks l x) (fun ax s' => inv s' /\ (fst ax = Stop -> True)) s.
Proof.
  intros IH FH I Hlo El Rn Rt Lf. assert (Fl : from lo (Some l)) by (eapply from_mono; [exact Hlo|by apply from_at]).
  pose proof (lookup_lt_Some _ _ _ El) as Lt. unfold pp_sw. apply wp_bind, wp_get_kind.
  destruct (mem_kind _ _); [by apply wp_ret|]. destruct (kind_eqb _ KSquareL).
  { apply wp_bind. eapply wp_mono; [apply (skip_nest_ok j); [done|done|done|by apply from_at|lia]|]. intros r s' [I' _]. by apply wp_ret. }
  destruct (mem_kind _ _); [by apply wp_ret|]. destruct (kind_eqb _ KFunc) eqn:E.
  { apply kind_eqb_true in E. apply wp_bind. eapply wp_mono; [apply (IH j (Some l)); [done|done|done|by apply from_at|done|lia]|]. intros r s' [I' _]. by apply wp_ret. }
  destruct (mem_kind _ _) eqn:E2; [|by apply wp_ret]. apply mem_kind_true in E2.
  destruct (_ =? _)%Z; [|destruct (negb x)]; (apply wp_bind, set_kind_ok; [done..|]; intros s' I'; by apply wp_ret).
Qed.
Lemma gf_sw_ok f rk hooks l j v s : SR f -> PR f -> Forall hook_ok hooks -> inv s -> lo <= j -> ls !! j = Some l ->
  6 * N j + 5 <= f -> wp (gf_sw f rk hooks l v) (fun ax s' => inv s' /\ (fst ax = Stop -> contain rk (kind_of (s_heap s') (Some l)) = true)) s.
Proof.
  intros IS IP FH I Hlo El Lf. assert (Fl : from lo (Some l)) by (eapply from_mono; [exact Hlo|by apply from_at]).
  pose proof (lookup_lt_Some _ _ _ El) as Lt. unfold gf_sw. destruct v as [named param]. apply wp_bind, wp_get_kind.
  destruct (contain _ _) eqn:Ec; [apply wp_ret; destruct param; done|]. destruct (kind_eqb _ KComment); [by apply wp_ret|]. destruct (kind_eqb _ KRaw) eqn:E1.
  { destruct (negb named); [|by apply wp_ret]. apply kind_eqb_true in E1. apply wp_bind, set_kind_ok; [done|done|apply okk_base, mem_kind_true; reflexivity|rewrite E1; apply mem_kind_true; reflexivity|].
    intros s' I'. by apply wp_ret. }
  destruct (kind_eqb _ KSpace).
  { destruct (_ && _); [|by apply wp_ret]. apply wp_bind. eapply wp_mono; [apply (IS j); [done|done|done|by apply from_at|done]|]. intros r s' [I' _]. by apply wp_ret. }
  destruct (kind_eqb _ KParenL).
  { apply wp_bind. eapply wp_mono; [apply (IP _ _ j); [done|done|done|done|by apply from_at|done]|]. intros r s' [I' _]. by apply wp_ret. }
  destruct (kind_eqb _ KCurlyL).
  { apply wp_bind. eapply wp_mono; [apply (skip_nest_ok j); [done|done|done|by apply from_at|lia]|]. intros r s' [I' _]. by apply wp_ret. }
  destruct (kind_eqb _ KSquareL); [|by apply wp_ret].
  apply wp_bind. eapply wp_mono; [apply (skip_nest_ok j); [done|done|done|by apply from_at|lia]|]. intros r s' [I' _]. by apply wp_ret.
Qed.
Definition fr_state (fm : bool * bool) : Prop := okr = true \/ fm = (true, false).
Lemma fr_sw_ok f hooks i hd l j fm s : GF f -> PR f -> fr_state fm -> Forall hook_ok hooks -> inv s -> lo <= i -> from i hd -> ls !! j = Some l -> i <= j ->
  6 * N i + 6 <= f -> wp (fr_sw f hd hooks l fm) (fun ax s' => inv s' /\ fr_state (snd ax) /\ (fst ax = Stop -> True)) s.
Proof.
  intros IG IP Hf FH I Hlo Fh El Lj Lf. unfold fr_sw. apply wp_bind, wp_get_kind.
  assert (G : fr_state (snd (if fst fm then (true, fm) else if kind_eqb (kind_of (s_heap s) (Some l)) KRaw then (true, (true, snd fm))
    else if kind_eqb (kind_of (s_heap s) (Some l)) KParenL then (true, (true, true)) else (false, fm)))).
  { destruct Hf as [Hf| ->]; [by left|]. by right. }
  destruct (if fst fm then _ else _) as [go fm']. cbn [snd] in G. destruct (negb go); [by apply wp_ret|]. destruct (snd fm') eqn:Es.
  { assert (Ho : okr = true) by (destruct G as [G| ->]; done).
    apply wp_bind. eapply wp_mono; [apply (IP _ _ j); [done|done|done|lia|by apply from_at|lia]|]. intros r s' [I' _]. apply wp_ret. split; [done|]. split; [by left|done]. }
  destruct (kind_eqb _ _); [by apply wp_ret|].
  apply wp_bind. eapply wp_mono; [apply (IG _ i); [done|done|done|done|case_decide; lia]|]. intros r s' [I' _]. by apply wp_ret.
Qed.
Lemma fr_main_ok f r hooks i p s : GF f -> PR f -> okr = true \/ ff_notmethod r = true -> Forall hook_ok hooks -> inv s -> lo <= i -> from i p -> 6 * N i + 6 <= f ->
  wp (fr_main f r hooks p) (post i) s.
Proof.
  intros IG IP Hr FH I Hlo F Lf. unfold fr_main. eapply wp_mono.
  - apply (wp_walkJ fr_state false i p hooks _ _ f s (fun _ _ => True)); [done|done|done|done|lia|destruct Hr as [?| ->]; [by left|by right]|].
    intros l j x s' El Lj I' Hx _. by apply (fr_sw_ok f hooks i _ _ j).
  - intros r' s' (I' & F' & _). by split.
Qed.

Lemma block_ok f : PR f /\ PP f /\ FRp f /\ FR f /\ GF f /\ PF f /\ SR f.
Proof.
  induction f as [|f (IPR & IPP & IFRp & IFR & IGF & IPF & ISR)].
  { unfold PR, PP, FRp, FR, GF, PF, SR. split_and!; intros; try lia; exfalso.
    - case_decide as D; [|lia]. destruct (kind_some _ _ _ D) as [l E]; [done|]. match goal with F : from i p |- _ => pose proof (from_lt i p l F E) end. lia.
    - case_decide as D; lia. }
  split_and!.
  - intros skip rcv i p hooks s Hr FH I Hlo F Lf. rewrite paren_run_eq. destruct skip; [apply (skip_nest_ok i); [done..|lia]|].
    apply wp_bind, wp_get_kind. destruct (kind_eqb _ _) eqn:E; cbn [negb].
    + apply kind_eqb_true in E. destruct (kind_some _ _ _ E) as [a ->]; [done|].
      destruct F as (ja & La & Ea). pose proof (lookup_lt_Some _ _ _ Ea) as Lt.
      eapply wp_mono.
      * apply (wp_walk false ja (Some a) hooks _ tt f s (fun _ _ => True)); [done|done|lia|by apply from_at|lia|].
        intros l j x s' El Lj I' Hk. apply (pr_sw_ok f rcv hooks ja l j); [done|done|done|done|lia|done|done|].
        intros D. destruct (decide (j = ja)) as [->|Dj].
        -- assert (l = a) as -> by congruence. rewrite Hk in D; [done|done|by rewrite E].
        -- pose proof (lookup_lt_Some _ _ _ El). lia.
      * intros r s' (I' & F' & _). split; [done|]. by eapply from_mono.
    + apply wp_bind, wp_hooks; [done|done|by eapply from_mono|]. intros s' I' _. apply wp_get_next. split; [done|]. eapply base_next'; [by apply inv_base|done].
  - intros rcv i p hooks s Hr FH I Hlo F Lf. rewrite paren_param_eq. apply wp_bind. unfold valid_param_count. apply wp_bind.
    eapply wp_scanM; [done|done|by apply inv_base|exact F|]. intros r. apply wp_ret. eapply wp_mono.
    + apply (wp_walk false i p hooks _ _ f s (fun _ _ => True)); [done|done|done|done|lia|].
      intros l j x s' El Lj I' _. apply (pp_sw_ok f _ _ _ hooks l j); try done; try lia; (destruct rcv; [rewrite (Hr eq_refl); apply mem_kind_true; reflexivity|apply okk_base, mem_kind_true; reflexivity]).
    + intros r' s' (I' & F' & _). by split.
  - intros i p hooks s FH I Hlo F Ek Lf. rewrite func_run_eq. cbn [ff_param ff_p]. apply IPF; [done..|]. rewrite decide_True by done. lia.
  - intros r i p hooks s Hr FH I Hlo F Lf. rewrite func_run_eq. destruct (ff_param r) eqn:Ep.
    { apply IPF; [done..|]. case_decide; lia. }
    destruct (ff_iface r) eqn:Ei. { apply IGF; [done..|]. case_decide; lia. }
    apply wp_bind. eapply wp_mono; [apply (is_temp_ok i); [by apply inv_base|done|lia]|]. intros tmp s' ->. cbv beta.
    destruct tmp. { apply IGF; [done..|]. case_decide; lia. }
    assert (Hr' : okr = true \/ ff_notmethod r = true) by (destruct Hr as [?|[?|[?|?]]]; [by left|congruence|congruence|by right]).
    destruct (ff_lead r); [|apply fr_main_ok; [done..|lia]].
    apply wp_bind, wp_get_kind, wp_bind, wp_hooks; [done|done|by eapply from_mono|]. intros s1 I1 S1. apply wp_bind, wp_get_next.
    assert (Fn : from i (next_of (s_heap s1) p)) by (eapply base_next'; [by apply inv_base|done]).
    destruct (negb _); [by apply wp_ret|]. apply fr_main_ok; [done..|lia].
  - intros rk i p hooks s FH I Hlo F Lf. rewrite general_func_eq. apply wp_bind, wp_get_kind, wp_bind. case_decide as D.
    + rewrite (proj2 (kind_eqb_true _ _) D). apply wp_bind, wp_hooks; [done|done|by eapply from_mono|]. intros s1 I1 S1. apply wp_get_next.
      destruct (kind_some _ _ _ D) as [a ->]; [done|]. pose proof (from_lt i (Some a) a F eq_refl).
      eapply wp_mono.
      * apply (wp_walk false (S i) _ hooks _ _ f s1 (fun _ _ => True)); [done|done|lia|eapply base_next; [by apply inv_base|done]|lia|].
        intros l j x s' El Lj I' _. eapply wp_mono; [apply gf_sw_ok with (j := j); try done; lia|]. intros ax s'' [I'' _]. done.
      * intros r' s' (I' & F' & _). split; [done|]. eapply from_mono; [|exact F']. lia.
    + rewrite (proj2 (kind_eqb_false _ _) D). apply wp_ret. eapply wp_mono.
      * apply (wp_walk false i _ hooks _ _ f s (fun _ _ => True)); [done|done|lia|done|lia|].
        intros l j x s' El Lj I' _. eapply wp_mono; [apply gf_sw_ok with (j := j); try done; lia|]. intros ax s'' [I'' _]. done.
      * intros r' s' (I' & F' & _). by split.
  - intros i p hooks s FH I Hlo F Lf. rewrite parameter_func_eq. apply wp_bind. eapply wp_mono; [apply (IGF _ i); [done..|case_decide; lia]|].
    intros n s1 [I1 F1]. cbv beta. apply wp_bind, wp_get_kind. destruct (kind_eqb _ _); [|by apply wp_ret].
    apply wp_bind, wp_hooks; [done|done|by eapply from_mono|]. intros s2 I2 _. apply wp_get_next. split; [done|]. eapply base_next'; [by apply inv_base|done].
  - intros i p hooks s FH I Hlo F Lf. rewrite single_return_eq. apply wp_bind, wp_get_kind. destruct (kind_eqb _ KSpace) eqn:E; cbn [negb].
    2:{ apply wp_bind, wp_hooks; [done|done|by eapply from_mono|]. intros s' I' _. apply wp_get_next. split; [done|]. eapply base_next'; [by apply inv_base|done]. }
    apply kind_eqb_true in E. destruct (kind_some _ _ _ E) as [a ->]; [done|]. pose proof (from_lt i (Some a) a F eq_refl) as Lt.
    apply wp_bind, wp_get_next. assert (F1 : from (S i) (next_of (s_heap s) (Some a))) by (eapply base_next; [by apply inv_base|done]).
    revert F1. generalize (next_of (s_heap s) (Some a)). intros q F1.
    apply wp_bind. eapply wp_mono; [apply (find_next_ok (S i)); [done|done|lia|done|lia]|]. intros fd s1 [I1 Fd]. cbv beta.
    apply wp_bind, wp_get_kind.
    assert (Up : forall r s', post (S i) r s' -> post i r s') by (intros r s' [? Fr]; split; [done|]; eapply from_mono; [|exact Fr]; lia).
    destruct (kind_eqb _ KParenL). { eapply wp_mono; [apply (IPR _ _ (S i)); [done|done|done|lia|done|lia]|]. apply Up. }
    destruct (kind_eqb _ KFunc). { eapply wp_mono; [apply (IPF (S i)); [done|done|lia|done|case_decide; lia]|]. apply Up. }
    apply wp_bind. eapply wp_mono; [apply (single_iter hooks (S i)); [done|done|lia|done|lia]|].
    intros [b r] s2 (I2 & F2 & vs & Sg & D1 & D2 & Eb). cbn [fst snd] in *. apply wp_bind.
    eapply wp_mono; [apply (finish_single (S i) q vs r); [done|lia|done|done|done|done|exact Eb]|].
    intros ? s3 I3. cbv beta. apply wp_ret. apply Up. by split.
Qed.
End run.
