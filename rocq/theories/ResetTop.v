(** The resetters of type declarations, and resetKind. *)
From Verif Require Export ResetRun.

Definition if_sw (fuel : nat) (hooks : list hook) (l : loc) (_ : unit) : M (act * unit) :=
  k <- get_kind (Some l) ;
  if kind_eqb k KCurlyR then ret (Stop, tt)
  else if mem_kind k [KTab; KComment; KNewLine; KSpace; KCurlyL] then ret (Cont, tt)
  else
    b <- is_line_function (Some l) ;
    if (b : bool) then p <- func_run fuel ff_i (Some l) hooks ; ret (Jump p, tt)
    else
      (if kind_eqb k KRaw then do_set_kind (Some l) KTypeName else ret tt) ;;;
      p <- find_next fuel (Some l) [KNewLine; KCurlyR] opt_outside hooks ;
      ret (Jump p, tt).
Definition row_sw (fuel : nat) (l : loc) (count : Z) : M (act * Z) :=
  k <- get_kind (Some l) ;
  if kind_eqb k KNewLine then ret (Stop, count)
  else if mem_kind k [KComment; KNewLine; KTab; KSpace; KComma] then ret (Cont, count)
  else if kind_eqb k KRaw
  then if negb (count =? 0)%Z
       then do_set_kind (Some l) KParamName ;;; ret (Cont, (count - 1)%Z)
       else do_set_kind (Some l) KParamType ;;; ret (Cont, count)
  else if kind_eqb k KFunc
  then p <- func_run fuel ff_p (Some l) [raw_hook] ; ret (Jump p, count)
  else ret (Cont, count).
Definition st_sw (fuel : nat) (hooks : list hook) (l : loc) (_ : unit) : M (act * unit) :=
  k <- get_kind (Some l) ;
  if kind_eqb k KCurlyR then ret (Stop, tt)
  else if mem_kind k [KComment; KCurlyL; KNewLine] then ret (Cont, tt)
  else p <- struct_row fuel (Some l) hooks ; ret (Jump p, tt).
Definition ty_sw (fuel : nat) (hooks : list hook) (l : loc) (v : bool * bool) : M (act * (bool * bool)) :=
  let '(named, spaced) := v in
  k <- get_kind (Some l) ;
  if negb named
  then if mem_kind k [KCurlyR; KNewLine] then ret (Stop, v)
       else if kind_eqb k KRaw then do_set_kind (Some l) KTypeName ;;; ret (Cont, (true, spaced))
       else ret (Cont, v)
  else if negb spaced
  then if kind_eqb k KSpace then ret (Cont, (named, true))
       else if kind_eqb k KSquareL
       then p <- square_run fuel (Some l) hooks ; ret (Jump p, v)
       else ret (Cont, v)
  else if kind_eqb k KComment then ret (Cont, v)
  else if kind_eqb k KInterface
  then p <- interface_run fuel (Some l) hooks ; ret (Jump p, v)
  else if kind_eqb k KStruct
  then p <- struct_run fuel (Some l) hooks ; ret (Jump p, v)
  else if kind_eqb k KFunc
  then p <- func_run fuel ff_n (Some l) hooks ; ret (Jump p, v)
  else if kind_eqb k KRaw
  then p <- param_run fuel false KParamType [KNewLine] (Some l) hooks ; ret (Jump p, v)
  else if kind_eqb k KSquareL
  then p <- square_run fuel (Some l) hooks ; ret (Jump p, v)
  else ret (Cont, v).
Definition pa_sw (fuel : nat) (hooks : list hook) (l : loc) (_ : unit) : M (act * unit) :=
  let appended := hooks ++ [buf_hook] in
  k <- get_kind (Some l) ;
  if contain (cset_new [KNewLine]) k then ret (Stop, tt)
  else if kind_eqb k KParenL
  then p <- paren_run fuel false false (Some l) appended ; ret (Jump p, tt)
  else if kind_eqb k KCurlyL
  then p <- curly_run fuel (Some l) appended ; ret (Jump p, tt)
  else if kind_eqb k KSquareL
  then p <- square_run fuel (Some l) appended ; ret (Jump p, tt)
  else if kind_eqb k KFunc
  then p <- func_run fuel ff_n (Some l) hooks ; ret (Jump p, tt)
  else if kind_eqb k KComment then ret (Cont, tt)
  else (fun s => Ok (buf_hook (Some l) s, tt)) ;;; ret (Cont, tt).

Lemma interface_run_eq fuel head hooks : interface_run fuel head hooks =
  (head <- find_next fuel head [KCurlyL] opt0 hooks ; walk false fuel hooks (if_sw fuel hooks) head tt).
Proof. reflexivity. Qed.
Lemma struct_row_eq fuel head hooks : struct_row fuel head hooks =
  (count <- row_name_count head ; walk false fuel hooks (row_sw fuel) head count).
Proof. reflexivity. Qed.
Lemma struct_run_eq fuel head hooks : struct_run fuel head hooks =
  (m <- find_next fuel head [KCurlyL] opt0 hooks ; head <- get_next m ; walk false fuel hooks (st_sw fuel hooks) head tt).
Proof. reflexivity. Qed.
Lemma type_run_eq fuel head hooks : type_run fuel head hooks =
  (k <- get_kind head ;
   if negb (kind_eqb k KType) then handle_hook head hooks ;;; get_next head
   else walk true fuel hooks (ty_sw fuel hooks) head (false, false)).
Proof. reflexivity. Qed.
Definition clear_buf : M unit := fun s => Ok (mkSt (s_heap s) [], tt).
Definition end_buf : M unit := fun s => finish_combine KParamType (s_buf s) s.
Lemma param_run_eq fuel head hooks : param_run fuel false KParamType [KNewLine] head hooks =
  (clear_buf ;;; r <- walk false fuel hooks (pa_sw fuel hooks) head tt ; end_buf ;;; ret r).
Proof. reflexivity. Qed.

Section top.
Context (h0 : heap) (ls : list loc) (ND : NoDup ls).
Context (Hval : forall a, a ∈ ls -> valid h0 a).
Context (Hout : forall a b, a ∉ ls -> next_of h0 (Some a) = Some b -> b ∉ ls).
Context (okr : bool) (lo : nat) (K : heap -> Prop).
Notation from := (from ls).
Notation base := (base h0 ls).
Notation N i := (length ls - i).
Context (HKk : forall h p k, base h -> K h -> from lo p -> k ∈ okk okr -> kind_of h p ∈ param_kinds -> K (set_kind h p k)).
Context (HKm : forall (h : heap) p vs r h' b b', base h -> K h -> from lo p -> nseg h p vs r ->
  Forall (fun l => l ∈ ls /\ kind_of h (Some l) ∉ run_kinds) vs -> (r = None \/ kind_of h r ∈ run_kinds) ->
  finish_combine KParamType (map Some (filter (fun l => kind_of h (Some l) <> KComment) vs)) (mkSt h b) = Ok (mkSt h' b', tt) ->
  base h' -> K h').
Definition any : list ptr -> Prop := fun _ => True.
Notation inv := (inv h0 ls K any).
Notation post := (post h0 ls K any).
Notation hook_ok := (hook_ok h0 ls lo K any).

Lemma block f : PR h0 ls okr lo K any f /\ PP h0 ls okr lo K any f /\ FRp h0 ls lo K any f /\ FR h0 ls okr lo K any f /\
  GF h0 ls lo K any f /\ PF h0 ls lo K any f /\ SR h0 ls lo K any f.
Proof. by apply block_ok. Qed.

Lemma row_ok i p hooks fuel s : Forall hook_ok hooks -> inv s -> lo <= i -> from i p -> 6 * N i + 8 <= fuel ->
  wp (struct_row fuel p hooks) (post i) s.
Proof.
  intros FH I Hlo F Lf. rewrite struct_row_eq. apply wp_bind. unfold row_name_count. apply wp_bind.
  eapply wp_scanM; [done|done|by eapply inv_base|exact F|]. intros r. apply wp_ret. eapply wp_mono.
  - apply (wp_walk h0 ls ND lo K any false i p hooks _ _ fuel s (fun _ _ => True)); [done|done|done|done|lia|].
    intros l j x s' El Lj I' _. assert (Fl : from lo (Some l)) by (exists j; split; [lia|done]).
    unfold row_sw. apply wp_bind, wp_get_kind.
    destruct (kind_eqb _ KNewLine); [by apply wp_ret|]. destruct (mem_kind _ _); [by apply wp_ret|].
    destruct (kind_eqb _ KRaw) eqn:E.
    { apply kind_eqb_true in E. destruct (negb _); apply wp_bind; (eapply set_kind_ok; [exact Hval|exact HKk|exact I'|done|apply okk_base, mem_kind_true; reflexivity|rewrite E; apply mem_kind_true; reflexivity|]);
        intros s2 I2; by apply wp_ret. }
    destruct (kind_eqb _ KFunc) eqn:E2; [|by apply wp_ret].
    apply wp_bind. destruct (block fuel) as (_ & _ & _ & IFR & _).
    eapply wp_mono; [apply (IFR _ j); [by right; left| |done|lia|by apply from_at|lia]|].
    + constructor; [|done]. by eapply raw_hook_ok.
    + intros r' s2 [I2 _]. by apply wp_ret.
  - intros r' s' (I' & F' & _). by split.
Qed.
Lemma struct_ok i p hooks fuel s : Forall hook_ok hooks -> inv s -> lo <= i -> from i p -> 6 * N i + 8 <= fuel ->
  wp (struct_run fuel p hooks) (fun r s' => inv s' /\ from i r /\ forall l, r = Some l -> kind_of (s_heap s') (Some l) = KCurlyR) s.
Proof.
  intros FH I Hlo F Lf. rewrite struct_run_eq. apply wp_bind.
  eapply wp_mono; [apply (find_next_ok h0 ls lo K any i); [done..|lia]|]. intros m s1 [I1 F1]. cbv beta. apply wp_bind, wp_get_next.
  assert (F2 : from i (next_of (s_heap s1) m)) by (eapply base_next'; [by eapply inv_base|done]).
  apply (wp_walk h0 ls ND lo K any false i _ hooks _ _ fuel s1 (fun l s' => kind_of (s_heap s') (Some l) = KCurlyR)); [done|done|done|done|lia|].
  intros l j x s' El Lj I' _. unfold st_sw. apply wp_bind, wp_get_kind.
  destruct (kind_eqb _ KCurlyR) eqn:E; [apply kind_eqb_true in E; by apply wp_ret|]. destruct (mem_kind _ _); [by apply wp_ret|].
  apply wp_bind. eapply wp_mono; [apply (row_ok j); [done|done|lia|by apply from_at|lia]|]. intros r s2 [I2 _]. by apply wp_ret.
Qed.
Lemma interface_ok i p hooks fuel s : Forall hook_ok hooks -> inv s -> lo <= i -> from i p -> 6 * N i + 8 <= fuel ->
  wp (interface_run fuel p hooks) (fun r s' => inv s' /\ from i r /\ forall l, r = Some l -> kind_of (s_heap s') (Some l) = KCurlyR) s.
Proof.
  intros FH I Hlo F Lf. rewrite interface_run_eq. apply wp_bind.
  eapply wp_mono; [apply (find_next_ok h0 ls lo K any i); [done..|lia]|]. intros m s1 [I1 F1]. cbv beta.
  apply (wp_walk h0 ls ND lo K any false i _ hooks _ _ fuel s1 (fun l s' => kind_of (s_heap s') (Some l) = KCurlyR)); [done|done|done|done|lia|].
  intros l j x s' El Lj I' _. assert (Fl : from lo (Some l)) by (exists j; split; [lia|done]).
  unfold if_sw. apply wp_bind, wp_get_kind.
  destruct (kind_eqb _ KCurlyR) eqn:E; [apply kind_eqb_true in E; by apply wp_ret|]. destruct (mem_kind _ _); [by apply wp_ret|].
  apply wp_bind. unfold is_line_function. apply wp_bind. eapply wp_scanM; [done|done|by eapply inv_base|by apply from_at|]. intros r. apply wp_ret.
  destruct (fst r).
  - apply wp_bind. destruct (block fuel) as (_ & _ & _ & IFR & _).
    eapply wp_mono; [apply (IFR _ j); [by right; right; left|done|done|lia|by apply from_at|lia]|]. intros r' s2 [I2 _]. by apply wp_ret.
  - apply wp_bind. eapply (wp_mono _ (fun _ s2 => inv s2)).
    { destruct (kind_eqb _ KRaw) eqn:E2; [|by apply wp_ret]. apply kind_eqb_true in E2.
      eapply set_kind_ok; [exact Hval|exact HKk|exact I'|done|apply okk_base, mem_kind_true; reflexivity|rewrite E2; apply mem_kind_true; reflexivity|done]. }
    intros ? s2 I2. cbv beta. apply wp_bind. eapply wp_mono; [apply (find_next_ok h0 ls lo K any j); [done|done|lia|by apply from_at|lia]|].
    intros r' s3 [I3 _]. by apply wp_ret.
Qed.

(** The plain type after the name: a hypothesis here, see [param_ok] and TextProofs. *)
Definition param_spec (fuel : nat) : Prop := forall i p s, inv s -> lo <= i -> from i p -> kind_of (s_heap s) p = KRaw -> 6 * N i + 8 <= fuel ->
  wp (param_run fuel false KParamType [KNewLine] p []) (post i) s.

Lemma ty_sw_ok fuel l j v s : param_spec fuel -> inv s -> lo <= j -> ls !! j = Some l -> 6 * N j + 8 <= fuel ->
  wp (ty_sw fuel [] l v) (fun ax s' => inv s' /\ (fst ax = Stop -> True)) s.
Proof.
  intros HP I Hlo El Lf. assert (Fl : from lo (Some l)) by (exists j; split; [lia|done]). assert (Fj : from j (Some l)) by (by apply from_at).
  unfold ty_sw. destruct v as [named spaced]. apply wp_bind, wp_get_kind. destruct (negb named).
  { destruct (mem_kind _ _); [by apply wp_ret|]. destruct (kind_eqb _ KRaw) eqn:E; [|by apply wp_ret]. apply kind_eqb_true in E.
    apply wp_bind. eapply set_kind_ok; [exact Hval|exact HKk|exact I|done|apply okk_base, mem_kind_true; reflexivity|rewrite E; apply mem_kind_true; reflexivity|].
    intros s2 I2; by apply wp_ret. }
  destruct (negb spaced).
  { destruct (kind_eqb _ KSpace); [by apply wp_ret|]. destruct (kind_eqb _ KSquareL); [|by apply wp_ret].
    apply wp_bind. eapply wp_mono; [apply (skip_nest_ok h0 ls lo K any j); [done|done|lia|done|lia]|]. intros r s' [I' _]. by apply wp_ret. }
  destruct (kind_eqb _ KComment); [by apply wp_ret|]. destruct (kind_eqb _ KInterface).
  { apply wp_bind. eapply wp_mono; [apply (interface_ok j); [done|done|lia|done|lia]|]. intros r s' [I' _]. by apply wp_ret. }
  destruct (kind_eqb _ KStruct).
  { apply wp_bind. eapply wp_mono; [apply (struct_ok j); [done|done|lia|done|lia]|]. intros r s' [I' _]. by apply wp_ret. }
  destruct (kind_eqb _ KFunc).
  { apply wp_bind. destruct (block fuel) as (_ & _ & _ & IFR & _). eapply wp_mono; [apply (IFR _ j); [by right; right; right|done|done|lia|done|lia]|]. intros r s' [I' _]. by apply wp_ret. }
  destruct (kind_eqb _ KRaw) eqn:E.
  { apply kind_eqb_true in E. apply wp_bind. eapply wp_mono; [apply (HP j); [done|done|done|done|lia]|]. intros r s' [I' _]. by apply wp_ret. }
  destruct (kind_eqb _ KSquareL); [|by apply wp_ret].
  apply wp_bind. eapply wp_mono; [apply (skip_nest_ok h0 ls lo K any j); [done|done|lia|done|lia]|]. intros r s' [I' _]. by apply wp_ret.
Qed.
Lemma type_ok i p fuel s : param_spec fuel -> inv s -> lo <= i -> from i p -> 6 * N i + 8 <= fuel ->
  wp (type_run fuel p []) (post i) s.
Proof.
  intros HP I Hlo F Lf. rewrite type_run_eq. apply wp_bind, wp_get_kind. destruct (negb _).
  { apply wp_bind, wp_ret, wp_get_next. split; [done|]. eapply base_next'; [by eapply inv_base|done]. }
  eapply wp_mono.
  - apply (wp_walk h0 ls ND lo K any true i p [] _ _ fuel s (fun _ _ => True)); [done|done|done|done|lia|].
    intros l j x s' El Lj I' _. apply (ty_sw_ok fuel l j); [done|done|lia|done|lia].
  - intros r' s' (I' & F' & _). by split.
Qed.
Lemma reset_ok i p fuel s : okr = true -> param_spec fuel -> inv s -> lo <= i -> from i p -> 6 * N i + 8 <= fuel ->
  wp (reset_kind fuel p) (post i) s.
Proof.
  intros Ho HP I Hlo F Lf. unfold reset_kind. apply wp_bind, wp_get_kind. destruct (kind_eqb _ KFunc).
  { destruct (block fuel) as (_ & _ & _ & IFR & _). apply IFR; try done. by left. }
  destruct (kind_eqb _ KType); [by apply type_ok|]. apply wp_ret. by split.
Qed.

(** paramResetter when any merge of later nodes is harmless. *)
Context (HKa : forall (h : heap) n i rest b h' b', base h -> K h -> ls !! i = Some n -> lo <= i -> Forall (from i) rest ->
  finish_combine KParamType (Some n :: rest) (mkSt h b) = Ok (mkSt h' b', tt) -> base h' -> K h').
Lemma param_ok fuel : param_spec fuel.
Proof.
  intros i p s (B & HK & _) Hlo F Ek Lf. destruct p as [a|]; [|done]. destruct F as (ja & Lja & Ea).
  set (Kb := fun buf : list ptr => head buf = Some (Some a) /\ Forall (from ja) buf).
  assert (BH : ResetRun.hook_ok h0 ls ja K Kb buf_hook).
  { intros n s1 (B1 & K1 & H1 & F1) Fn. split; [|split; auto]. split; [done|]. split; [done|]. cbn [buf_hook s_buf]. split.
    - by apply app_unrep_hd.
    - apply Forall_forall. intros x [Hx| ->]%app_unrep_in; [|done]. rewrite Forall_forall in F1. by apply F1. }
  assert (HKk' : forall h p k, base h -> K h -> from ja p -> k ∈ okk okr -> kind_of h p ∈ param_kinds -> K (set_kind h p k)).
  { intros h p k B1 K1 Fp. apply HKk; [done|done|]. eapply from_mono; [|exact Fp]. lia. }
  assert (HKm' : forall (h : heap) p vs r h' b b', base h -> K h -> from ja p -> nseg h p vs r ->
    Forall (fun l => l ∈ ls /\ kind_of h (Some l) ∉ run_kinds) vs -> (r = None \/ kind_of h r ∈ run_kinds) ->
    finish_combine KParamType (map Some (filter (fun l => kind_of h (Some l) <> KComment) vs)) (mkSt h b) = Ok (mkSt h' b', tt) ->
    base h' -> K h').
  { intros h p vs r h' b b' B1 K1 Fp. apply HKm; [done|done|]. eapply from_mono; [|exact Fp]. lia. }
  destruct (block_ok h0 ls ND Hval Hout okr ja K Kb HKk' HKm' fuel) as (IPR & _ & _ & IFR & _).
  rewrite param_run_eq. apply wp_bind. unfold wp at 1, clear_buf. apply wp_bind. unfold walk. apply wp_bind.
  pose proof (lookup_lt_Some _ _ _ Ea) as Lta.
  eapply (wp_iterM h0 ls (fun q (w : wl unit) s' => base (s_heap s') /\ K (s_heap s') /\
     ((q = Some a /\ s_buf s' = [] /\ w = mkWl false None tt /\ kind_of (s_heap s') (Some a) = KRaw) \/ (Kb (s_buf s') /\ q <> Some a))) _ ja).
  - intros q w s' [? _]. done.
  - intros w s' (B1 & K1 & [(? & _)|[HB _]]); [done|]. apply wp_ret. cbn [snd]. apply wp_bind.
    unfold wp at 1, end_buf. destruct HB as [Hh Fb]. destruct (s_buf s') as [|q0 rest] eqn:Eb; [done|]. injection Hh as ->. apply Forall_cons in Fb as [_ Fb].
    destruct s' as [h' b']. cbn [s_heap s_buf] in *.
    destruct (finish_base h0 ls ND Hval Hout h' a ja rest KParamType b' B1 Ea Fb) as (h2 & E2 & B2 & _); [apply mem_kind_true; reflexivity|].
    rewrite E2. apply wp_ret. split; [|done]. split; [done|]. split; [|done]. eapply HKa; [exact B1|exact K1|exact Ea|lia|exact Fb|exact E2|done].
  - intros l j w s1 El Lj (B1 & K1 & D). unfold walk_body. apply wp_bind. unfold wp at 1, handle_hook. cbn [fold_left].
    assert (Nx : forall s3 : st, base (s_heap s3) -> next_of (s_heap s3) (Some l) <> Some a).
    { intros s3 B3 E3. destruct (b_fwd _ _ _ B3 j l a El E3) as (q & Lq & Eq). assert (q = ja) by (by eapply at_inj). lia. }
    destruct D as [([= ->] & Eb & -> & Ek1)|[HB Na]].
    + cbn [w_skip w_jump w_x]. change (negb (ptr_eqb None None) && negb (ptr_eqb (Some a) None)) with false. change (negb (ptr_eqb None None) && false) with false. cbv iota.
      apply wp_bind. unfold pa_sw. apply wp_bind, wp_get_kind. rewrite Ek1. cbn [app].
      change (contain (cset_new [KNewLine]) KRaw) with false. change (kind_eqb KRaw KParenL) with false. change (kind_eqb KRaw KCurlyL) with false.
      change (kind_eqb KRaw KSquareL) with false. change (kind_eqb KRaw KFunc) with false. change (kind_eqb KRaw KComment) with false. cbv iota.
      apply wp_bind. unfold wp at 1. apply wp_ret. cbn [fst snd]. apply wp_ret. cbn [fst snd buf_hook s_heap s_buf]. rewrite Eb.
      split; [done|]. split; [done|]. split; [done|]. right. split; [|by apply (Nx s1)]. split; [done|]. repeat constructor. by apply from_at.
    + assert (I1 : ResetRun.inv h0 ls K Kb s1) by (by split).
      assert (Fin : forall s3 : st, ResetRun.inv h0 ls K Kb s3 -> base (s_heap s3) /\ base (s_heap s3) /\ K (s_heap s3) /\
        ((next_of (s_heap s3) (Some l) = Some a /\ s_buf s3 = [] /\ w = mkWl false None tt /\ kind_of (s_heap s3) (Some a) = KRaw) \/ (Kb (s_buf s3) /\ next_of (s_heap s3) (Some l) <> Some a))).
      { intros s3 (B3 & K3 & HB3). split; [done|]. split; [done|]. split; [done|]. right. split; [done|by apply Nx]. }
      assert (Fin2 : forall (s3 : st) w', ResetRun.inv h0 ls K Kb s3 -> base (s_heap s3) /\ base (s_heap s3) /\ K (s_heap s3) /\
        ((next_of (s_heap s3) (Some l) = Some a /\ s_buf s3 = [] /\ w' = mkWl false None tt /\ kind_of (s_heap s3) (Some a) = KRaw) \/ (Kb (s_buf s3) /\ next_of (s_heap s3) (Some l) <> Some a))).
      { intros s3 w' (B3 & K3 & HB3). split; [done|]. split; [done|]. split; [done|]. right. split; [done|by apply Nx]. }
      destruct (w_skip w); [by apply wp_ret, Fin|]. destruct (negb _ && negb _); [by apply wp_ret, Fin|]. destruct (negb _ && false); [by apply wp_ret, Fin2|].
      apply wp_bind. eapply (wp_mono _ (fun ax s3 => ResetRun.inv h0 ls K Kb s3)).
      { unfold pa_sw. apply wp_bind, wp_get_kind. cbn [app].
        assert (FB : Forall (ResetRun.hook_ok h0 ls ja K Kb) [buf_hook]) by (constructor; [exact BH|constructor]).
        destruct (contain _ _); [by apply wp_ret|].
        destruct (kind_eqb _ KParenL). { apply wp_bind. eapply wp_mono; [apply (IPR _ _ j); [done|done|done|lia|by apply from_at|lia]|]. intros r s3 [I3 _]. by apply wp_ret. }
        destruct (kind_eqb _ KCurlyL). { apply wp_bind. eapply wp_mono; [apply (skip_nest_ok h0 ls ja K Kb j); [done|done|lia|by apply from_at|lia]|]. intros r s3 [I3 _]. by apply wp_ret. }
        destruct (kind_eqb _ KSquareL). { apply wp_bind. eapply wp_mono; [apply (skip_nest_ok h0 ls ja K Kb j); [done|done|lia|by apply from_at|lia]|]. intros r s3 [I3 _]. by apply wp_ret. }
        destruct (kind_eqb _ KFunc). { apply wp_bind. eapply wp_mono; [apply (IFR _ j); [by right; right; right|done|done|lia|by apply from_at|lia]|]. intros r s3 [I3 _]. by apply wp_ret. }
        destruct (kind_eqb _ KComment); [by apply wp_ret|]. apply wp_bind. unfold wp at 1. apply wp_ret.
        refine (proj1 (BH (Some l) s1 I1 _)). exists j. split; [lia|done]. }
      intros ax s3 I3. cbv beta. destruct (fst ax); apply wp_ret; cbn [fst snd]; [|by apply Fin2..].
      apply wp_ret. cbn [snd]. apply wp_bind. unfold wp at 1, end_buf. destruct I3 as (B3 & K3 & Hh & Fb).
      destruct (s_buf s3) as [|q0 rest] eqn:Eb; [done|]. injection Hh as ->. apply Forall_cons in Fb as [_ Fb].
      destruct s3 as [h3 b3]. cbn [s_heap s_buf] in *.
      destruct (finish_base h0 ls ND Hval Hout h3 a ja rest KParamType b3 B3 Ea Fb) as (h2 & E2 & B2 & _); [apply mem_kind_true; reflexivity|].
      rewrite E2. apply wp_ret. split; [|exists j; split; [lia|done]]. split; [done|]. split; [|done].
      eapply HKa; [exact B3|exact K3|exact Ea|lia|exact Fb|exact E2|done].
  - exact (Nat.le_refl ja).
  - by apply from_at.
  - cbn. lia.
  - cbn [s_heap s_buf]. split; [done|]. split; [done|]. by left.
Qed.
End top.
