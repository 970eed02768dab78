(** Reasoning rules for the resetters, which run in the monad [M]. *)
From Verif Require Export SpecScope Reset NodeFinal.

(** [wp m Q s]: [m] run in state [s] ends normally with a result satisfying [Q]. *)
Definition wp {A} (m : M A) (Q : A -> st -> Prop) (s : st) : Prop :=
  match m s with Ok (s', a) => Q a s' | _ => False end.

Lemma wp_mono {A} (m : M A) (Q Q' : A -> st -> Prop) s : wp m Q s -> (forall a s', Q a s' -> Q' a s') -> wp m Q' s.
Proof. unfold wp. destruct (m s) as [[s' a]| |]; auto. Qed.
Lemma wp_ret {A} (a : A) (Q : A -> st -> Prop) s : Q a s -> wp (ret a) Q s.
Proof. done. Qed.
Lemma wp_bind {A B} (m : M A) (k : A -> M B) Q s : wp m (fun a s' => wp (k a) Q s') s -> wp (bind m k) Q s.
Proof. unfold wp, bind. destruct (m s) as [[s' a]| |]; done. Qed.
Lemma wp_get_kind p (Q : kind -> st -> Prop) s : Q (kind_of (s_heap s) p) s -> wp (get_kind p) Q s.
Proof. done. Qed.
Lemma wp_get_next p (Q : ptr -> st -> Prop) s : Q (next_of (s_heap s) p) s -> wp (get_next p) Q s.
Proof. done. Qed.
Lemma wp_elim {A} (m : M A) (Q : A -> st -> Prop) s : wp m Q s -> exists s' a, m s = Ok (s', a) /\ Q a s'.
Proof. unfold wp. destruct (m s) as [[s' a]| |]; [eauto|done..]. Qed.

Lemma kind_eqb_true a b : kind_eqb a b = true <-> a = b.
Proof. apply bool_decide_eq_true. Qed.
Lemma kind_eqb_false a b : kind_eqb a b = false <-> a <> b.
Proof. apply bool_decide_eq_false. Qed.
Lemma mem_kind_true k l : mem_kind k l = true <-> k ∈ l.
Proof. apply bool_decide_eq_true. Qed.
Lemma mem_kind_false k l : mem_kind k l = false <-> k ∉ l.
Proof. apply bool_decide_eq_false. Qed.
Lemma app_unrep_in (b : list ptr) p x : x ∈ append_unrepeatable b [p] -> x ∈ b \/ x = p.
Proof.
  unfold append_unrepeatable. destruct (last b).
  - case_bool_decide; [rewrite app_nil_r; by left|]. rewrite elem_of_app, elem_of_list_singleton. done.
  - rewrite elem_of_list_singleton. by right.
Qed.
Lemma app_unrep_hd (b : list ptr) p x : head b = Some x -> head (append_unrepeatable b [p]) = Some x.
Proof.
  intros H. unfold append_unrepeatable. destruct (last b) eqn:L; [|apply last_None in L; by subst].
  case_bool_decide; [by rewrite app_nil_r|]. by destruct b.
Qed.

Lemma node_ext (h h' : heap) x : length h' = length h ->
  (line_of h' (Some x) = line_of h (Some x) /\ kind_of h' (Some x) = kind_of h (Some x) /\ text_of h' (Some x) = text_of h (Some x)) ->
  same_links h h' x -> h' !! x = h !! x.
Proof.
  intros L (P1 & P2 & P3) [P4 P5]. destruct (h !! x) as [nd|] eqn:E.
  - assert (V : x < length h') by (rewrite L; by eapply lookup_lt_Some). destruct (lookup_lt_is_Some_2 h' x V) as [nd' E']. rewrite E'. f_equal.
    unfold line_of, kind_of, text_of, next_of, prev_of in *. rewrite !(field_lookup _ _ _ _ _ E), !(field_lookup _ _ _ _ _ E') in *.
    destruct nd, nd'; simpl in *; by subst.
  - apply lookup_ge_None in E. apply lookup_ge_None. lia.
Qed.

Section order.
Context (h0 : heap) (ls : list loc) (ND : NoDup ls).

(** [p] is nil or a node of [ls] at position [i] or later. *)
Definition from (i : nat) (p : ptr) : Prop :=
  match p with None => True | Some a => exists j, i <= j /\ ls !! j = Some a end.
Lemma from_mono i j p : i <= j -> from j p -> from i p.
Proof. destruct p as [a|]; [|done]. intros L (k & Hk & E). exists k. split; [lia|done]. Qed.
Lemma from_at i a : ls !! i = Some a -> from i (Some a).
Proof. intros E. by exists i. Qed.
Lemma from_in i p a : from i p -> p = Some a -> a ∈ ls.
Proof. intros F ->. destruct F as (j & _ & E). by eapply elem_of_list_lookup_2. Qed.
Lemma at_inj i j a : ls !! i = Some a -> ls !! j = Some a -> i = j.
Proof. intros A B. by eapply NoDup_lookup. Qed.

(** What every step of a refinement keeps. *)
Record base (h : heap) : Prop :=
  { b_wf : wf h;
    b_len : length h = length h0;
    b_fwd : forall i a b, ls !! i = Some a -> next_of h (Some a) = Some b -> exists j, i < j /\ ls !! j = Some b;
    b_out : forall a, a ∉ ls -> h !! a = h0 !! a;
    b_line : forall p, line_of h p = line_of h0 p;
    b_kind : forall p, kind_of h p = kind_of h0 p \/ kind_of h p ∈ refined }.

Lemma base_next h i p : base h -> from i p -> from (S i) (next_of h p).
Proof.
  intros B F. destruct p as [a|]; [|done]. destruct F as (j & L & E).
  destruct (next_of h (Some a)) as [b|] eqn:N; [|done].
  destruct (b_fwd h B j a b E N) as (k & Lk & Ek). exists k. split; [lia|done].
Qed.
Lemma base_next' h i p : base h -> from i p -> from i (next_of h p).
Proof. intros B F. eapply from_mono; [|by apply base_next]. lia. Qed.

Context (Hval : forall a, a ∈ ls -> valid h0 a).
Context (Hout : forall a b, a ∉ ls -> next_of h0 (Some a) = Some b -> b ∉ ls).
Lemma base_closed h a b : base h -> a ∉ ls -> next_of h (Some a) = Some b -> b ∉ ls.
Proof. intros B Ha N. apply (Hout a b Ha). rewrite <- N. unfold next_of. apply field_ext. symmetry. by apply B. Qed.
Lemma base_valid h a : base h -> a ∈ ls -> valid h a.
Proof. intros B Ha. unfold valid. rewrite (b_len h B). by apply Hval. Qed.
Lemma base_live h i p : base h -> from i p -> live h p.
Proof. intros B F. destruct p as [a|]; [|done]. simpl. apply base_valid; [done|]. by eapply from_in. Qed.

Lemma base_set_kind h i p k : base h -> from i p -> k ∈ refined -> base (set_kind h p k).
Proof.
  intros B F R. destruct p as [a|]; [|done].
  assert (Ha : a ∈ ls) by (by eapply from_in). assert (V : valid h a) by (by apply base_valid).
  constructor.
  - apply wf_set_kind, B.
  - rewrite length_set_kind. apply B.
  - intros j x b. rewrite (proj1 (links_set_kind h (Some a) k x)). apply B.
  - intros x Hx. rewrite <- (b_out h B x Hx). unfold set_kind. apply list_lookup_alter_ne. intros ->. done.
  - intros p. rewrite line_set_kind. apply B.
  - intros [x|]; [|by left]. rewrite kind_set_kind by done. case_decide; [by right|apply B].
Qed.

(** ** Loops *)
Lemma wp_iterM {X} (I : ptr -> X -> st -> Prop) (Q : X * ptr -> st -> Prop) i fuel (body : loc -> X -> M (X * bool)) :
  (forall p x s, I p x s -> base (s_heap s)) ->
  (forall x s, I None x s -> Q (x, None) s) ->
  (forall l j x s, ls !! j = Some l -> i <= j -> I (Some l) x s ->
     wp (body l x) (fun xb s' => if snd xb then base (s_heap s') /\ I (next_of (s_heap s') (Some l)) (fst xb) s'
                                 else Q (fst xb, Some l) s') s) ->
  forall p x s j, i <= j -> from j p -> length ls - j <= fuel -> I p x s -> wp (iterM fuel body p x) Q s.
Proof.
  intros HB HN HS. induction fuel as [|f IH]; intros p x s j Lj F Lf HI.
  - destruct p as [l|].
    + destruct F as (k & Lk & E). apply lookup_lt_Some in E. lia.
    + unfold wp, iterM. cbn [loop res_bind]. by apply HN.
  - destruct p as [l|].
    2:{ unfold wp, iterM. cbn [loop res_bind]. by apply HN. }
    destruct F as (k & Lk & E). pose proof (HS l k x s E ltac:(lia) HI) as W. unfold wp, iterM.
    cbn [loop fst snd]. unfold wp in W. destruct (body l x s) as [[s' [x' b]]| |]; [|done..]. cbn [res_bind fst snd] in *.
    destruct b.
    + destruct W as [B I']. pose proof (lookup_lt_Some _ _ _ E) as Lt.
      specialize (IH (next_of (s_heap s') (Some l)) x' s' (S k) ltac:(lia)).
      unfold wp, iterM in IH. apply IH; [apply base_next; [done|by apply from_at]|lia|done].
    + exact W.
Qed.

(** Reading callbacks. *)
Lemma wp_scanM {A} p (fn : heap -> loc -> A -> A * bool) a (Q : A * ptr -> st -> Prop) s i :
  base (s_heap s) -> from i p -> (forall r, Q r s) -> wp (scanM p fn a) Q s.
Proof.
  intros B F HQ. unfold wp, scanM, scan_next.
  assert (G : forall fuel p a j, from j p -> length ls - j <= fuel -> exists r,
    loop fuel (fun _ l => next_of (s_heap s) (Some l)) (fun l a => Ok (fn (s_heap s) l a)) p a = Ok r).
  { clear -B ND. induction fuel as [|f IH]; intros p a j F L.
    - destruct p as [l|]; [|by eexists]. destruct F as (k & Lk & E). apply lookup_lt_Some in E. lia.
    - destruct p as [l|]; [|by eexists]. destruct F as (k & Lk & E). cbn [loop].
      destruct (fn (s_heap s) l a) as [a' [|]]; [|by eexists]. apply (IH _ _ (S k)).
      + apply base_next; [done|by apply from_at].
      + apply lookup_lt_Some in E. lia. }
  destruct (G (S (length (s_heap s))) p a i F) as [r ->]; [|cbn [res_bind]; apply HQ].
  pose proof (NoDup_bound ls (length (s_heap s)) ND (fun x Hx => base_valid _ x B Hx)). lia.
Qed.

(** ** Merging: the deferred combination *)
Lemma finish_base h n i rest k b : base h -> ls !! i = Some n -> Forall (from i) rest -> k ∈ refined ->
  exists h', finish_combine k (Some n :: rest) (mkSt h b) = Ok (mkSt h' b, tt) /\ base h' /\
    (forall x, x <> n -> line_of h' (Some x) = line_of h (Some x) /\ kind_of h' (Some x) = kind_of h (Some x) /\ text_of h' (Some x) = text_of h (Some x)) /\
    (forall x y, (forall j, ls !! j = Some x -> j < i) -> (forall j, ls !! j = Some y -> j < i) ->
       next_of h (Some x) = Some y -> next_of h' (Some x) = Some y) /\
    kind_of h' (Some n) = k.
Proof.
  intros B En Fr R. unfold finish_combine.
  assert (In : n ∈ ls) by (by eapply elem_of_list_lookup_2).
  assert (Vn : valid h n) by (by apply base_valid).
  assert (Lr : Forall (live h) rest) by (eapply Forall_impl; [exact Fr|]; intros p Hp; by eapply base_live).
  assert (Fl : from i (default None (last (Some n :: rest)))).
  { destruct (last (Some n :: rest)) as [p|] eqn:L; [|done]. apply last_Some_elem_of in L. apply elem_of_cons in L as [->|L]; [by apply from_at|].
    rewrite Forall_forall in Fr. by apply Fr. }
  cbn [s_heap s_buf]. set (nx := next_of h (default None (last (Some n :: rest)))).
  assert (Fx : from (S i) nx) by (by apply base_next).
  destruct (combine_full false h n k rest (b_wf h B) Vn Lr) as (h1 & E1 & W1 & L1 & _ & K1 & Ln1 & _ & S1 & N1).
  unfold combine_next. rewrite E1. cbn [res_bind].
  assert (V1 : valid h1 n) by (unfold valid; rewrite L1; done).
  assert (Lx : live h1 nx). { eapply live_mono; [|by eapply base_live]. lia. }
  set (h' := fst (replace_next h1 (Some n) nx)).
  assert (W' : wf h') by (by apply wf_replace_next).
  destruct (same_payload_replace_next h1 (Some n) nx) as [SL SP]. fold h' in SL, SP.
  assert (Hn : forall x, next_of h' (Some x) = (if decide (x = n) then nx else if decide (nx <> None /\ next_of h1 (Some x) = nx) then None else next_of h1 (Some x))).
  { intros x. unfold h'. destruct nx as [m|] eqn:Em.
    - destruct Fx as (j & Lj & Ej).
      assert (n <> m). { intros ->. assert (j = i) by (by eapply at_inj). lia. }
      destruct (decide (next_of h1 (Some n) = Some m)) as [Q|Q].
      + rewrite replace_next_noop by (by right). cbn [fst]. case_decide; [by subst|]. case_decide as D; [|done].
        destruct D as [_ D]. apply W1 in D, Q. congruence.
      + destruct (replace_next_links h1 n m W1 V1 Lx H Q) as [NN _]. rewrite NN. case_decide; [done|].
        destruct (decide (next_of h1 (Some x) = Some m)); [by rewrite decide_True|]. rewrite decide_False; [done|naive_solver].
    - destruct (replace_next_nil_arg_links h1 n W1 V1) as [NN _]. rewrite NN. case_decide; [done|]. rewrite decide_False; [done|naive_solver]. }
  assert (Ab : forall x, Some x ∈ absorbed (Some n) rest -> exists j, i < j /\ ls !! j = Some x).
  { intros x [[_ Hx] Hin]%elem_of_list_filter. rewrite Forall_forall in Fr. destruct (Fr _ Hin) as (j & Lj & Ej). exists j. split; [|done].
    assert (j <> i); [|lia]. intros ->. congruence. }
  assert (Fwd : forall j a b0, ls !! j = Some a -> next_of h' (Some a) = Some b0 -> exists q, j < q /\ ls !! q = Some b0).
  { intros j a b0 Ea. rewrite Hn. case_decide as D.
    - subst a. intros Eb. assert (j = i) as -> by (by eapply at_inj). rewrite Eb in Fx. destruct Fx as (q & Lq & Eq). exists q. split; [lia|done].
    - case_decide; [done|]. rewrite N1. case_decide; [done|]. by apply B. }
  assert (Out : forall x, x ∉ ls -> next_of h' (Some x) = next_of h (Some x)).
  { intros x Hx. rewrite Hn, decide_False by (by intros ->). rewrite N1. rewrite (decide_False (P := _ \/ _)).
    - rewrite decide_False; [done|]. intros [D1 D2]. destruct nx as [m|]; [|done]. destruct Fx as (q & _ & Eq). apply elem_of_list_lookup_2 in Eq.
      by apply (base_closed h x m B Hx D2).
    - intros [D|D]; [apply Ab in D as (q & _ & Eq); by apply elem_of_list_lookup_2 in Eq|].
      destruct (next_of h (Some x)) as [m|] eqn:Em; [|by apply elem_of_list_filter in D as [[? _] _]].
      apply Ab in D as (q & _ & Eq). apply elem_of_list_lookup_2 in Eq. by apply (base_closed h x m B Hx Em). }
  assert (Out' : forall x, x ∉ ls -> prev_of h' (Some x) = prev_of h (Some x)).
  { intros x Hx. apply option_eq. intros y. rewrite <- (wf_sym h' W'), <- (wf_sym h (b_wf h B)).
    destruct (decide (y ∈ ls)) as [Hy|Hy]; [|by rewrite Out].
    apply elem_of_list_lookup in Hy as [j Hy]. split; intros N.
    - destruct (Fwd j y x Hy N) as (q & _ & Eq). by apply elem_of_list_lookup_2 in Eq.
    - destruct (b_fwd h B j y x Hy N) as (q & _ & Eq). by apply elem_of_list_lookup_2 in Eq. }
  assert (OutAll : forall x, x ∉ ls -> h' !! x = h0 !! x).
  { intros x Hx. rewrite <- (b_out h B x Hx). assert (Nx : x <> n) by (by intros ->).
    apply node_ext.
    - by rewrite SL, L1.
    - destruct (SP (Some x)) as (-> & -> & ->). destruct (S1 x Nx) as (-> & -> & ->). done.
    - split; [by apply Out|by apply Out']. }
  exists h'. split; [done|]. split; [|split; [|split]].
  - constructor.
    + done.
    + rewrite SL, L1. apply B.
    + done.
    + done.
    + intros p. rewrite <- (b_line h B p). destruct p as [x|]; [|done]. destruct (SP (Some x)) as (-> & _).
      destruct (decide (x = n)) as [->|D]; [done|]. by apply S1.
    + intros p. destruct p as [x|]; [|by left]. destruct (SP (Some x)) as (_ & -> & _).
      destruct (decide (x = n)) as [->|D]; [rewrite K1; by right|]. destruct (S1 x D) as (_ & -> & _). apply B.
  - intros x Hx. destruct (SP (Some x)) as (-> & -> & ->). destruct (S1 x Hx) as (-> & -> & ->). done.
  - intros x y Hx Hy N. rewrite Hn, decide_False by (intros ->; specialize (Hx i En); lia). rewrite N1, N.
    rewrite (decide_False (P := _ \/ _)).
    + rewrite decide_False; [done|]. intros [_ D]. rewrite <- D in Fx. destruct Fx as (j & Lj & Ej). specialize (Hy j Ej). lia.
    + intros [D|D]; apply Ab in D as (j & Lj & Ej); [specialize (Hx j Ej)|specialize (Hy j Ej)]; lia.
  - destruct (SP (Some n)) as (_ & -> & _). exact K1.
Qed.
End order.
