(** Refining a type declaration keeps its text, when the declaration is simple enough. *)
From Verif Require Export TextProofs SpecText.

(** A loop whose callback only appends its node to the buffer. *)
Lemma unrep_new bs l : l ∉ bs -> append_unrepeatable (map Some bs) [Some l] = map Some (bs ++ [l] : list loc).
Proof.
  intros H. rewrite map_app. unfold append_unrepeatable. destruct (last (map Some bs)) as [x|] eqn:L.
  - rewrite bool_decide_eq_false_2; [done|]. intros ->. apply last_Some_elem_of, elem_of_list_fmap in L as (y & [= <-] & L). done.
  - apply last_None in L. rewrite L. done.
Qed.
Lemma unrep_same bs l : append_unrepeatable (map Some (bs ++ [l])) [Some l] = map Some (bs ++ [l] : list loc).
Proof. rewrite map_app. unfold append_unrepeatable. cbn [map]. rewrite last_snoc, bool_decide_eq_true_2 by done. apply app_nil_r. Qed.
Lemma sub_NoDup {A} (xs ys : list A) : xs `sublist_of` ys -> NoDup ys -> NoDup xs.
Proof.
  induction 1 as [|x xs ys Hs IH|x xs ys _ IH]; [done|..]; rewrite !NoDup_cons; [|tauto]. intros [H1 H2]. split; [|by apply IH].
  intros H. apply H1. by eapply sublist_in.
Qed.
Lemma hook_new h bs l : l ∉ bs -> buf_hook (Some l) (mkSt h (map Some bs)) = mkSt h (map Some (bs ++ [l])).
Proof. intros H. unfold buf_hook. cbn [s_heap s_buf]. by rewrite unrep_new. Qed.
Lemma hook_same h bs l : buf_hook (Some l) (mkSt h (map Some (bs ++ [l]))) = mkSt h (map Some (bs ++ [l])).
Proof. unfold buf_hook. cbn [s_heap s_buf]. by rewrite unrep_same. Qed.

Lemma hooked_iter {X} (h : heap) (R : loc -> Prop) (body : loc -> X -> M (X * bool)) us : 
  (forall l c b, exists r, body l c (mkSt h b) = Ok (mkSt h (append_unrepeatable b [Some l]), r) /\ (snd r = false -> R l)) ->
  forall bs c fuel p, nseg h p us None -> length us <= fuel -> NoDup (bs ++ us) ->
  wp (iterM fuel body p c) (fun r s' => s_heap s' = h /\ ((snd r = None /\ s_buf s' = map Some (bs ++ us)) \/
     exists u1 t u2, us = u1 ++ t :: u2 /\ snd r = Some t /\ s_buf s' = map Some (bs ++ u1 ++ [t]) /\ R t)) (mkSt h (map Some bs)).
Proof.
  intros Hb. induction us as [|u us IH]; intros bs c fuel p Sg Lf D; cbn [NodeChain.nseg] in Sg.
  - rewrite Sg. unfold wp, iterM. destruct fuel; cbn [loop res_bind snd s_heap s_buf]; (split; [done|]); left; (split; [done|]); by rewrite app_nil_r.
  - destruct Sg as [-> Sg]. cbn [length] in Lf. apply step_iterM; [lia|].
    destruct (Hb u c (map Some bs)) as ([x b] & E & ER). unfold wp at 1. rewrite E. rewrite unrep_new.
    2:{ apply NoDup_app in D as (_ & D & _). intros H. apply (D u H). by left. }
    cbn [fst snd s_heap]. destruct b.
    + eapply wp_mono; [apply (IH (bs ++ [u])); [done|lia|by rewrite <- app_assoc]|]. intros r s' (E1 & [[E2 E3]|(u1 & t & u2 & E2 & E3 & E4 & E5)]); (split; [done|]).
      * left. split; [done|]. rewrite E3. by rewrite <- app_assoc.
      * right. exists (u :: u1), t, u2. split; [by rewrite E2|]. split; [done|]. split; [|done]. rewrite E4. by rewrite <- app_assoc.
    + cbn [s_heap s_buf]. split; [done|]. right. exists [], u, us. split; [done|]. split; [done|]. split; [done|]. by apply ER.
Qed.
Lemma skip_nest_buf (h : heap) bs l us a b fuel : nseg h (Some l) (l :: us) None -> NoDup (bs ++ l :: us) -> length us < fuel -> kind_of h (Some l) = a ->
  wp (skip_nest fuel (Some l) a b [buf_hook]) (fun r s' => s_heap s' = h /\ ((r = None /\ s_buf s' = map Some (bs ++ l :: us)) \/
    exists u1 t u2, us = u1 ++ t :: u2 /\ r = Some t /\ s_buf s' = map Some (bs ++ l :: u1 ++ [t]) /\ kind_of h (Some t) = b)) (mkSt h (map Some bs)).
Proof.
  intros Sg D Lf Ek. unfold skip_nest. apply wp_bind, wp_get_kind. cbn [s_heap]. rewrite Ek, (proj2 (kind_eqb_true a a) eq_refl).
  assert (Hl : l ∉ bs). { apply NoDup_app in D as (_ & D & _). intros H. apply (D l H). by left. }
  apply wp_bind, wp_bind. unfold wp at 1, handle_hook. cbn [fold_left]. rewrite hook_new by done.
  apply wp_bind. unfold find_next. apply wp_bind. apply step_iterM; [lia|]. apply wp_bind. unfold wp at 1, handle_hook. cbn [fold_left]. rewrite hook_same. apply wp_bind, wp_get_kind, wp_ret. cbn [fst snd s_heap]. rewrite Ek.
  assert (Fd : forall c, find_decide [a] opt0 a c = false).
  { intros [[p b0] q]. unfold find_decide. cbn [o_inP o_inC o_inS o_outP o_outC o_outS opt0 o_rev andb]. rewrite contain_new, bool_decide_eq_true_2; [done|by left]. }
  rewrite Fd. apply wp_ret. cbn [snd]. apply wp_get_next. cbn [s_heap]. cbn [NodeChain.nseg] in Sg. destruct Sg as [_ Sg].
  apply wp_bind. eapply wp_mono.
  - apply (hooked_iter h (fun t => kind_of h (Some t) = b) _ us) with (bs := bs ++ [l]); [|done|lia|by rewrite <- app_assoc].
    intros x c b0. unfold bind, handle_hook, get_kind. cbn [fold_left res_bind]. unfold buf_hook. cbn [s_heap s_buf].
    destruct (kind_eqb _ a); [by eexists|]. destruct (kind_eqb _ b) eqn:Eb; [|by eexists].
    apply kind_eqb_true in Eb. eexists. split; [reflexivity|]. done.
  - intros r s' (E1 & [[E2 E3]|(u1 & t & u2 & E2 & E3 & E4 & E5)]); apply wp_ret; (split; [done|]).
    + left. split; [done|]. rewrite E3. by rewrite <- app_assoc.
    + right. exists u1, t, u2. split; [done|]. split; [done|]. split; [|done]. rewrite E4. by rewrite <- app_assoc.
Qed.

(** Skipping matched square brackets. *)
Definition sk_step (a b : kind) (l : loc) (count : Z) : M (Z * bool) :=
  handle_hook (Some l) [] ;;;
  k <- get_kind (Some l) ;
  if kind_eqb k a then ret (count + 1, true)%Z
  else if kind_eqb k b then ret ((count - 1)%Z, negb (count - 1 =? 0)%Z)
  else ret (count, true).
Lemma skip_squares ks : squares ks -> forall us (s : st) p q c fuel Q, map (fun l => kind_of (s_heap s) (Some l)) us = ks -> nseg (s_heap s) p us q -> length us <= fuel -> (1 <= c)%Z ->
  wp (iterM (fuel - length us) (sk_step KSquareL KSquareR) q c) Q s -> wp (iterM fuel (sk_step KSquareL KSquareR) p c) Q s.
Proof.
  assert (One : forall u (s : st) c c' fuel Q, 1 <= fuel -> sk_step KSquareL KSquareR u c s = Ok (s, (c', true)) ->
    wp (iterM (fuel - 1) (sk_step KSquareL KSquareR) (next_of (s_heap s) (Some u)) c') Q s -> wp (iterM fuel (sk_step KSquareL KSquareR) (Some u) c) Q s).
  { intros u s c c' fuel Q L E H. apply step_iterM; [lia|]. unfold wp at 1. rewrite E. cbn [fst snd]. by replace (pred fuel) with (fuel - 1) by lia. }
  induction 1 as [|k ks N1 N2 Sq IH|ks ks' Sq IH Sq' IH']; intros us s p q c fuel Q Em Sg Lf Lc H.
  - apply map_eq_nil in Em as ->. cbn [NodeChain.nseg length] in *. rewrite Sg. by rewrite Nat.sub_0_r in H.
  - destruct us as [|u us]; [done|]. cbn [map] in Em. injection Em as Ek Em. destruct Sg as [-> Sg]. cbn [length] in *. apply (One _ _ _ c); [lia| |].
    + unfold sk_step, bind, handle_hook, get_kind. cbn [fold_left res_bind]. rewrite Ek, (proj2 (kind_eqb_false _ _) N1), (proj2 (kind_eqb_false _ _) N2). done.
    + apply (IH us _ _ q); [done|done|lia|done|]. by replace (fuel - 1 - length us) with (fuel - S (length us)) by lia.
  - destruct us as [|u us]; [done|]. cbn [map] in Em. injection Em as Ek Em. destruct Sg as [-> Sg].
    apply map_eq_app in Em as (u1 & u2 & -> & E1 & E2). destruct u2 as [|r u2]; [done|]. cbn [map] in E2. injection E2 as Er E2.
    apply nseg_app in Sg as (m & S1 & S2). pose proof S2 as [-> S3]. cbn [length] in *. rewrite app_length in *. cbn [length] in *. apply (One _ _ _ (c + 1)%Z); [lia| |].
    + unfold sk_step, bind, handle_hook, get_kind. cbn [fold_left res_bind]. rewrite Ek. kred. done.
    + apply (IH u1 _ _ (Some r)); [done|done|lia|lia|]. apply (One _ _ _ c); [lia| |].
      * unfold sk_step, bind, handle_hook, get_kind. cbn [fold_left res_bind]. rewrite Er. kred. replace (c + 1 - 1)%Z with c by lia.
        rewrite (proj2 (Z.eqb_neq c 0)) by lia. done.
      * apply (IH' u2 _ _ q); [done|done|lia|done|]. by replace (fuel - 1 - length u1 - 1 - length u2) with (fuel - S (length u1 + S (length u2))) by lia.
Qed.
Lemma square_pure a us c q fuel (s : st) : nseg (s_heap s) (Some a) (a :: us ++ [c]) q -> squares (map (fun l => kind_of (s_heap s) (Some l)) us) ->
  kind_of (s_heap s) (Some a) = KSquareL -> kind_of (s_heap s) (Some c) = KSquareR -> length us + 2 <= fuel ->
  wp (square_run fuel (Some a) []) (fun r s' => r = Some c /\ s' = s) s.
Proof.
  intros [_ Sg] Sq Ka Kc Lf. unfold square_run, skip_nest. apply wp_bind, wp_get_kind. rewrite Ka. kred. apply wp_bind, wp_bind. unfold wp at 1, handle_hook. cbn [fold_left].
  apply wp_bind. unfold find_next. apply wp_bind. apply step_iterM; [lia|]. apply wp_bind. unfold wp at 1, handle_hook. cbn [fold_left]. apply wp_bind, wp_get_kind, wp_ret. rewrite Ka.
  cbn [fst snd]. change (find_decide [KSquareL] opt0 KSquareL (count_step KSquareL (0, 0, 0)%Z)) with false. apply wp_ret. cbn [snd]. apply wp_get_next.
  apply nseg_app in Sg as (m & S1 & S2). apply wp_bind. change (wp (iterM fuel (sk_step KSquareL KSquareR) (next_of (s_heap s) (Some a)) 1%Z) (fun a0 s' => wp (ret a0.2) (fun r s'' => r = Some c /\ s'' = s) s') s).
  apply (skip_squares _ Sq us s _ m); [done|done|lia|lia|]. destruct S2 as [-> _]. apply step_iterM; [lia|]. unfold sk_step. apply wp_bind. unfold wp at 1, handle_hook. cbn [fold_left].
  apply wp_bind, wp_get_kind. rewrite Kc. kred. apply wp_ret. cbn [fst snd]. change (negb (1 - 1 =? 0)%Z) with false. by apply wp_ret.
Qed.
Lemma jump_over {X} skip (sw : loc -> X -> M (act * X)) t x us : forall p fuel (s : st) Q, nseg (s_heap s) p us (Some t) -> t ∉ us -> length us <= fuel ->
  wp (iterM (fuel - length us) (walk_body skip [] sw) (Some t) (mkWl false (Some t) x)) Q s -> wp (iterM fuel (walk_body skip [] sw) p (mkWl false (Some t) x)) Q s.
Proof.
  induction us as [|u us IH]; intros p fuel s Q Sg Nt Lf H; cbn [NodeChain.nseg length] in *.
  - rewrite Sg. by rewrite Nat.sub_0_r in H.
  - destruct Sg as [-> Sg]. apply not_elem_of_cons in Nt as [Nt1 Nt2]. apply step_iterM; [lia|]. apply wb_skip; [congruence|]. cbn [fst snd].
    apply IH; [done|done|lia|]. by replace (pred fuel - length us) with (fuel - S (length us)) by lia.
Qed.

Section text.
Context (h0 : heap) (ls : list loc) (W0 : SpecNode.wf h0) (C0 : chain h0 ls).
Let ND : NoDup ls := c_nd h0 ls C0.
Let Hval := c_val h0 ls C0.
Let Hout := c_out h0 ls W0 C0.
Notation from := (from ls).
Notation base := (base h0 ls).
Notation N i := (length ls - i).
Notation kind0 l := (kind_of h0 (Some l)).
Notation KT := (KT h0 ls).

(** From position [lo] on: no parentheses, no func, and every comment ends its line. *)
Definition simple_from (lo : nat) : Prop := forall j l, ls !! j = Some l -> lo <= j ->
  kind0 l <> KParenL /\ kind0 l <> KFunc /\ (kind0 l = KComment -> next_of h0 (Some l) = None \/ kind_of h0 (next_of h0 (Some l)) = KNewLine).

Lemma kind_back h l k : base h -> kind_of h (Some l) = k -> k ∉ refined -> kind0 l = k.
Proof. intros B E H. destruct (b_kind _ _ _ B (Some l)) as [Q|Q]; congruence. Qed.

Lemma param_simple lo fuel : simple_from lo -> param_spec h0 ls lo KT fuel.
Proof.
  intros Hs i p s (B & HK & _) Hlo F Ek Lf. destruct p as [a|]; [|done]. destruct F as (ja & Lja & Ea).
  destruct s as [h buf0]. cbn [s_heap] in *. pose proof (lookup_lt_Some _ _ _ Ea) as Lta.
  destruct (base_path h0 ls h B (length ls) ja a ltac:(lia) Ea) as (ts & Sg & Sub).
  assert (Pos : forall l, l ∈ a :: ts -> exists j, ja <= j /\ ls !! j = Some l).
  { intros l Hl. apply (sublist_in _ _ _ Sub) in Hl. apply elem_of_list_lookup in Hl as [q Hq]. rewrite lookup_drop in Hq. exists (ja + q). split; [lia|done]. }
  assert (NDx : NoDup (a :: ts)) by (eapply sub_NoDup; [exact Sub|]; rewrite <- (take_drop ja ls) in ND; by apply NoDup_app in ND as (_ & _ & ND)).
  assert (Len : length (a :: ts) <= N ja) by (apply sublist_length in Sub; by rewrite drop_length in Sub).
  set (xs := a :: ts) in *.
  assert (Kx : forall l, l ∈ xs -> kind_of h (Some l) <> KParenL /\ kind_of h (Some l) <> KFunc /\
     (kind_of h (Some l) = KComment -> next_of h (Some l) = None \/ kind_of h (next_of h (Some l)) = KNewLine)).
  { intros l Hl. destruct (Pos l Hl) as (j & Lj & Ej). destruct (Hs j l Ej ltac:(lia)) as (S1 & S2 & S3). split_and!.
    - intros E. apply S1. apply (kind_back h l _ B E). apply mem_kind_false. reflexivity.
    - intros E. apply S2. apply (kind_back h l _ B E). apply mem_kind_false. reflexivity.
    - intros E. assert (E0 : kind0 l = KComment) by (apply (kind_back h l _ B E); apply mem_kind_false; reflexivity).
      assert (Il : l ∈ ls) by (by eapply elem_of_list_lookup_2).
      destruct (kt_next _ _ _ HK l Il) as [Q|Q]; [rewrite E0; apply mem_kind_true; reflexivity| |by left].
      rewrite Q. destruct (S3 E0) as [?|S4]; [by left|]. destruct (next_of h0 (Some l)) as [m|] eqn:Em; [|by left]. right.
      rewrite <- S4. apply (kt_kind _ _ _ HK); [by eapply chain_next_in|]. rewrite S4. apply mem_kind_true. reflexivity. }
  set (I := fun (q : ptr) (w : wl unit) (s' : st) => s_heap s' = h /\
    ((exists bs us, xs = bs ++ us /\ w = mkWl false None tt /\ s_buf s' = map Some bs /\ nseg h q us None) \/
     (exists bs c us, xs = bs ++ c :: us /\ w = mkWl false None tt /\ s_buf s' = map Some bs /\ nseg h q us None /\ bs <> [] /\ kind_of h (Some c) = KComment /\ next_of h (Some c) = q) \/
     (exists b1 b2 t us, xs = b1 ++ b2 ++ t :: us /\ w = mkWl false (Some t) tt /\ s_buf s' = map Some (b1 ++ b2 ++ [t]) /\ nseg h q (b2 ++ t :: us) None /\ b1 <> [] /\ kind_of h (Some t) ∈ [KCurlyR; KSquareR]) \/
     (w_skip w = true /\ s_buf s' = map Some xs))).
  assert (Fin : forall (s' : st) bs us (r : ptr), s_heap s' = h -> xs = bs ++ us -> bs <> [] -> s_buf s' = map Some bs -> from i r ->
     wp (end_buf ;;; ret r) (post h0 ls KT any i) s').
  { intros [h' b'] bs us r Eh Ex Nb Eb Fr. cbn [s_heap s_buf] in *. subst h' b'. destruct bs as [|v ms]; [done|]. injection Ex as <- Et.
    apply wp_bind. unfold wp at 1, end_buf. cbn [s_buf].
    assert (FR : Forall (from ja) (map Some ms)).
    { apply Forall_fmap, Forall_forall. intros l Hl. destruct (Pos l) as (j & Lj & Ej); [|by exists j]. unfold xs. rewrite Et. right. apply elem_of_app. by left. }
    destruct (finish_base h0 ls ND Hval Hout h a ja (map Some ms) KParamType (map Some (a :: ms)) B Ea FR) as (h2 & E2 & B2 & _); [apply mem_kind_true; reflexivity|].
    change (map Some (a :: ms)) with (Some a :: map Some ms) in *. rewrite E2. apply wp_ret. split; [|done]. split; [done|]. split; [|done]. cbn [s_heap].
    assert (Sp : exists m, nseg h (Some a) (a :: ms) m).
    { unfold xs in Sg. rewrite Et, app_comm_cons in Sg. apply nseg_app in Sg as (m & Sg & _). by exists m. }
    destruct Sp as [m Sp]. eapply (KT_merge h0 ls h a ms m); [exact B|done|by eapply elem_of_list_lookup_2| |exact Sp|exact E2].
    rewrite Ek. apply mem_kind_false. reflexivity. }
  rewrite param_run_eq. apply wp_bind. unfold wp at 1, clear_buf. apply wp_bind. cbn [s_heap]. unfold walk. apply wp_bind.
  eapply (wp_iterM h0 ls I _ ja); [| | |exact (Nat.le_refl ja)|by apply from_at|lia|].
  - intros q w s' [-> _]. done.
  - intros w s' (Eh & H). apply wp_ret. cbn [snd].
    destruct H as [(bs & us & Ex & _ & Eb & Sq)|[(bs & c & us & Ex & _ & Eb & _ & Nb & _)|[(b1 & b2 & t & us & Ex & _ & Eb & Sq & Nb & Kt)|[_ Eb]]]].
    + destruct us as [|u us]; [|by destruct Sq]. apply (Fin s' bs []); [done|done| |done|done]. intros ->. done.
    + by apply (Fin s' bs (c :: us)).
    + destruct b2; by destruct Sq.
    + apply (Fin s' xs []); [done|by rewrite app_nil_r|done|done|done].
  - intros l j w s' El Lj (Eh & H). destruct s' as [h' buf]. cbn [s_heap s_buf] in *. subst h'.
    assert (Fl : from i (Some l)) by (exists j; split; [lia|done]).
    destruct H as [(bs & us & Ex & -> & -> & Sq)|[(bs & c & us & Ex & -> & -> & Sq & Nb & Kc & Nc)|[(b1 & b2 & t & us & Ex & -> & -> & Sq & Nb & Kt)|[Ew ->]]]].
    + destruct us as [|u us]; [done|]. pose proof Sq as [[= <-] Sq']. apply wb_run. unfold pa_sw. cbn [app].
      assert (Hl : l ∈ xs) by (rewrite Ex; apply elem_of_app; right; by left). destruct (Kx l Hl) as (K1 & K2 & K3).
      apply wp_bind, wp_get_kind. cbn [s_heap]. destruct (contain _ _) eqn:Ec.
      { apply wp_ret. cbn [fst snd]. apply wp_ret. cbn [snd]. apply (Fin _ bs (l :: us)); [done|done| |done|done].
        intros ->. injection Ex as <- _. rewrite Ek in Ec. done. }
      rewrite (proj2 (kind_eqb_false _ _) K1). 
      assert (Lus : length us < fuel). { assert (length (bs ++ l :: us) = length xs) as Q by (by rewrite Ex). rewrite app_length in Q. cbn [length] in Q. lia. }
      assert (Nxt : forall (s3 : st) r, s_heap s3 = h -> ((r = None /\ s_buf s3 = map Some (bs ++ l :: us)) \/
        exists u1 t u2, us = u1 ++ t :: u2 /\ r = Some t /\ s_buf s3 = map Some (bs ++ l :: u1 ++ [t]) /\ kind_of h (Some t) ∈ [KCurlyR; KSquareR]) ->
        base (s_heap s3) /\ I (next_of (s_heap s3) (Some l)) (mkWl (ptr_eqb r None) r tt) s3).
      { intros s3 r E3 H3. rewrite E3. split; [done|]. split; [done|]. right. right. destruct H3 as [[-> E4]|(u1 & t & u2 & -> & -> & E4 & E5)].
        - right. split; [done|]. by rewrite E4, Ex.
        - left. exists (bs ++ [l]), u1, t, u2. split; [rewrite Ex; by rewrite <- app_assoc|]. split; [done|]. split; [rewrite E4; by rewrite <- app_assoc|].
          split; [exact Sq'|]. split; [by destruct bs|done]. }
      assert (NDb : NoDup (bs ++ l :: us)) by (by rewrite <- Ex).
      destruct (kind_eqb _ KCurlyL) eqn:E1.
      { apply kind_eqb_true in E1. apply wp_bind. eapply wp_mono; [by apply skip_nest_buf|]. intros r s3 [E3 H3]. cbv beta. apply wp_ret. cbn [fst snd]. apply Nxt; [done|].
        destruct H3 as [?|(u1 & t & u2 & ? & ? & ? & Et)]; [by left|]. right. exists u1, t, u2. split; [done|]. split; [done|]. split; [done|]. rewrite Et. apply mem_kind_true. reflexivity. }
      destruct (kind_eqb _ KSquareL) eqn:E2.
      { apply kind_eqb_true in E2. apply wp_bind. eapply wp_mono; [by apply skip_nest_buf|]. intros r s3 [E3 H3]. cbv beta. apply wp_ret. cbn [fst snd]. apply Nxt; [done|].
        destruct H3 as [?|(u1 & t & u2 & ? & ? & ? & Et)]; [by left|]. right. exists u1, t, u2. split; [done|]. split; [done|]. split; [done|]. rewrite Et. apply mem_kind_true. reflexivity. }
      rewrite (proj2 (kind_eqb_false _ _) K2). destruct (kind_eqb _ KComment) eqn:E3.
      { apply kind_eqb_true in E3. apply wp_ret. cbn [fst snd s_heap]. split; [done|]. split; [done|]. right. left. exists bs, l, us. split_and!; try done.
        intros ->. injection Ex as <- _. rewrite Ek in E3. done. }
      apply wp_bind. unfold wp at 1. unfold buf_hook. cbn [s_heap s_buf]. apply wp_ret. cbn [fst snd s_heap].
      split; [done|]. split; [done|]. left. exists (bs ++ [l]), us. cbn [s_buf]. split; [rewrite Ex; by rewrite <- app_assoc|]. split; [done|]. split; [|done].
      apply unrep_new. apply NoDup_app in NDb as (_ & D & _). intros Hin. apply (D l Hin). by left.
    + destruct us as [|u us]; [done|]. destruct Sq as [[= <-] Sq]. apply wb_run. unfold pa_sw. cbn [app].
      assert (Hc : c ∈ xs) by (rewrite Ex; apply elem_of_app; right; by left). destruct (Kx c Hc) as (_ & _ & K3).
      destruct (K3 Kc) as [Q|Q]; [congruence|]. rewrite Nc in Q. apply wp_bind, wp_get_kind. cbn [s_heap]. rewrite Q. kred. apply wp_ret. cbn [fst snd]. apply wp_ret. cbn [snd].
      by apply (Fin _ bs (c :: l :: us)).
    + destruct b2 as [|u b2].
      * pose proof Sq as [[= <-] Sq']. apply wb_target. unfold pa_sw. cbn [app].
        assert (Hl : l ∈ xs) by (rewrite Ex; apply elem_of_app; right; by left). destruct (Kx l Hl) as (K1 & K2 & K3).
        cbn [app] in *.
        apply wp_bind, wp_get_kind. cbn [s_heap]. destruct (contain _ _) eqn:Ec.
        { apply wp_ret. cbn [fst snd]. apply wp_ret. cbn [snd]. apply (Fin _ (b1 ++ [l]) us); [done|rewrite Ex; by rewrite <- app_assoc|by destruct b1|done|done]. }
        assert (E7 : forall k, k ∉ [KCurlyR; KSquareR] -> kind_eqb (kind_of h (Some l)) k = false) by (intros k Hk; apply kind_eqb_false; intros E; rewrite E in Kt; done).
        rewrite !E7 by (apply mem_kind_false; reflexivity). apply wp_bind. unfold wp at 1, buf_hook. cbn [s_heap s_buf]. apply wp_ret. cbn [fst snd s_heap].
        split; [done|]. split; [done|]. left. exists (b1 ++ [l]), us. cbn [s_buf]. split; [rewrite Ex; by rewrite <- app_assoc|]. split; [done|]. split; [apply unrep_same|done].
      * pose proof Sq as [[= <-] Sq']. apply wb_skip.
        { intros ->. rewrite Ex in NDx. apply NoDup_app in NDx as (_ & _ & D). apply NoDup_cons in D as [D _]. apply D. apply elem_of_app. right. by left. }
        cbn [fst snd s_heap]. split; [done|]. split; [done|]. right. right. left. exists (b1 ++ [l]), b2, t, us. split; [rewrite Ex; by rewrite <- app_assoc|].
        split; [done|]. split; [by rewrite <- app_assoc|]. split; [done|]. split; [by destruct b1|done].
    + unfold walk_body. apply wp_bind. unfold wp at 1, handle_hook. cbn [fold_left]. rewrite Ew. apply wp_ret. cbn [fst snd s_heap]. split; [done|]. split; [done|]. right. right. right. done.
  - split; [done|]. left. exists [], xs. done.
Qed.

(** ** Steps over known nodes *)
Lemma simple_ok : simple_from 0 -> comments_ok h0 ls.
Proof.
  intros Hs l Hl Kl. apply elem_of_list_lookup in Hl as [j Hj]. destruct (Hs j l Hj ltac:(lia)) as (_ & _ & H). destruct (H Kl) as [?|E]; [by left|]. right.
  rewrite E. apply mem_kind_true. reflexivity.
Qed.
Section rest.
Context (Hco : comments_ok h0 ls).
Let HKk okr lo h p k : base h -> KT h -> from lo p -> k ∈ okk okr -> kind_of h p ∈ param_kinds -> KT (set_kind h p k).
Proof. intros B HK F Ok Pk. apply (KT_k h0 ls C0 okr); [done|done|eapply from_mono; [|exact F]; lia|done|done]. Qed.
Let HKm lo (h : heap) p vs r h' b b' : base h -> KT h -> from lo p -> nseg h p vs r ->
  Forall (fun l => l ∈ ls /\ kind_of h (Some l) ∉ run_kinds) vs -> (r = None \/ kind_of h r ∈ run_kinds) ->
  finish_combine KParamType (map Some (filter (fun l => kind_of h (Some l) <> KComment) vs)) (mkSt h b) = Ok (mkSt h' b', tt) ->
  base h' -> KT h'.
Proof. intros B HK F Sg Fv _ E _. apply (KT_m h0 ls h p vs r h' b b'); [done|done|done|eapply from_mono; [|exact F]; lia|done|done|done]. Qed.

Lemma plain_text f s : simple_from 0 -> base (s_heap s) -> KT (s_heap s) -> 6 * N 0 + 8 <= f ->
  wp (type_run f (head ls) []) (fun _ s' => base (s_heap s') /\ KT (s_heap s')) s.
Proof.
  intros Hs B HK Lf. eapply wp_mono.
  - apply (type_ok h0 ls ND Hval Hout true 0 KT (HKk true 0) (HKm 0) 0); [by apply param_simple|done|done| |done].
    destruct ls as [|a r] eqn:E; [done|]. by exists 0.
  - intros r s' ((B' & K' & _) & _). done.
Qed.

(** The rest of the walk of a type once a resetter has answered [r]. *)
Lemma ty_after r f fuel p v (s : st) : base (s_heap s) -> KT (s_heap s) -> (forall j l, r = Some l -> ls !! j = Some l -> simple_from (S j)) ->
  from 0 p -> N 0 <= fuel -> 6 * N 0 + 8 <= f ->
  wp (iterM fuel (walk_body true [] (ty_sw f [])) p (mkWl (ptr_eqb r None) r v)) (fun _ s' => base (s_heap s') /\ KT (s_heap s')) s.
Proof.
  intros B HK Hr F Lfu Lf.
  eapply (wp_iterM h0 ls (fun q w s' => base (s_heap s') /\ KT (s_heap s') /\ (w = mkWl (ptr_eqb r None) r v \/ exists j, simple_from (S j) /\ from (S j) q)) _ 0);
    [| | |exact (Nat.le_refl 0)|done|lia|split; [done|]; split; [done|]; by left].
  - intros q w s' [? _]. done.
  - intros w s' (B1 & K1 & _). done.
  - intros l j w s' El _ (B1 & K1 & H).
    destruct H as [-> |(i & Hs & Fi)].
    + destruct r as [t|].
      * change (ptr_eqb (Some t) None) with false. destruct (decide (l = t)) as [->|D].
        -- unfold walk_body. apply wp_bind. unfold wp at 1, handle_hook. cbn [fold_left w_skip w_jump w_x].
           unfold ptr_eqb. rewrite (bool_decide_eq_false_2 (Some t = None)) by done. rewrite (bool_decide_eq_true_2 (Some t = Some t)) by done. cbn [negb andb].
           apply wp_ret. cbn [fst snd]. split; [done|]. split; [done|]. split; [done|]. right. exists j. split; [by apply (Hr j t)|]. eapply base_next; [exact B1|by apply from_at].
        -- apply wb_skip; [done|]. cbn [fst snd]. split; [done|]. split; [done|]. split; [done|]. by left.
      * unfold walk_body. apply wp_bind. unfold wp at 1, handle_hook. cbn [fold_left w_skip]. change (ptr_eqb None None) with true. cbv iota. apply wp_ret. cbn [fst snd].
        split; [done|]. split; [done|]. split; [done|]. by left.
    + destruct Fi as (j' & Lj & Ej). assert (j' = j) as -> by (by eapply at_inj).
      assert (Nx : forall s3 : st, base (s_heap s3) -> KT (s_heap s3) -> forall w' : wl (bool * bool), base (s_heap s3) /\ base (s_heap s3) /\ KT (s_heap s3) /\
        (w' = mkWl (ptr_eqb r None) r v \/ exists j, simple_from (S j) /\ from (S j) (next_of (s_heap s3) (Some l)))).
      { intros s3 B3 K3 w'. split; [done|]. split; [done|]. split; [done|]. right. exists i. split; [done|]. eapply from_mono; [|eapply base_next; [exact B3|by apply from_at]]. lia. }
      unfold walk_body. apply wp_bind. unfold wp at 1, handle_hook. cbn [fold_left].
      destruct (w_skip w); [apply wp_ret; by apply Nx|]. destruct (negb _ && negb _); [apply wp_ret; by apply Nx|]. destruct (negb _ && _); [apply wp_ret; by apply Nx|].
      apply wp_bind. eapply wp_mono; [apply (ty_sw_ok h0 ls ND Hval Hout true (S i) KT (HKk true (S i)) (HKm (S i)) f l j)|].
      * by apply param_simple.
      * done.
      * done.
      * done.
      * lia.
      * intros ax s3 ((B3 & K3 & _) & _). cbv beta. destruct (fst ax); apply wp_ret; cbn [fst snd]; [done|by apply Nx..].
Qed.

(** ** Positions *)
Notation kd := (fun l => kind_of h0 (Some l)).
Definition between (n j : nat) : list kind := map kd (drop (S n) (take j ls)).
Definition after (j : nat) : list kind := map kd (drop (S j) ls).
Lemma nx0 j l : ls !! j = Some l -> next_of h0 (Some l) = ls !! S j.
Proof.
  intros E. pose proof C0 as C. rewrite <- (take_drop_middle ls j l E) in C. rewrite (chain_next h0 _ l _ C). by rewrite head_lookup, lookup_drop, Nat.add_0_r.
Qed.
Lemma between_S n j l : ls !! j = Some l -> n < j -> between n (S j) = between n j ++ [kd l].
Proof.
  intros E L. unfold between. rewrite (take_S_r ls j l E), drop_app_le, map_app; [done|]. apply lookup_lt_Some in E. rewrite take_length. lia.
Qed.
Lemma between_0 n : between n (S n) = [].
Proof. unfold between. rewrite drop_ge; [done|]. rewrite take_length. lia. Qed.
Lemma body_split n j l : ls !! j = Some l -> n < j -> after n = between n j ++ kd l :: after j.
Proof.
  intros E L. unfold after, between. rewrite <- (take_drop_middle ls j l E) at 1. rewrite drop_app_le, map_app; [done|].
  apply lookup_lt_Some in E. rewrite take_length. lia.
Qed.
Lemma after_split j l : ls !! S j = Some l -> after j = kd l :: after (S j).
Proof. intros E. rewrite (body_split j (S j) l E) by lia. by rewrite between_0. Qed.
Lemma comments_at ok j l : comments_before ok (map kd ls) -> ls !! j = Some l -> kd l = KComment -> next_of h0 (Some l) = None \/ kind_of h0 (next_of h0 (Some l)) ∈ ok.
Proof.
  intros Hc E Ek. rewrite (nx0 j l E). destruct (ls !! S j) as [m|] eqn:Em; [|by left]. right. apply (Hc (map kd (take j ls)) _ (after (S j))).
  rewrite <- Ek. rewrite <- (after_split j m Em). unfold after. rewrite <- (take_drop_middle ls j l E) at 1. by rewrite map_app.
Qed.
Lemma simple_after n : simple (map kd (drop n ls)) -> simple_from n.
Proof.
  intros (S1 & S2 & S3) j l E L.
  assert (In : kd l ∈ map kd (drop n ls)).
  { apply elem_of_list_fmap. exists l. split; [done|]. apply elem_of_list_lookup. exists (j - n). rewrite lookup_drop. by replace (n + (j - n)) with j by lia. }
  split; [intros Q; apply S1; by rewrite <- Q|]. split; [intros Q; apply S2; by rewrite <- Q|].
  intros Ek. rewrite (nx0 j l E). destruct (ls !! S j) as [m|] eqn:Em; [|by left]. right.
  specialize (S3 (map kd (drop n (take j ls))) (kd m) (after (S j))). rewrite elem_of_list_singleton in S3. apply S3.
  rewrite <- (after_split j m Em). unfold after. rewrite <- Ek. rewrite <- (take_drop_middle ls j l E) at 1.
  pose proof (lookup_lt_Some _ _ _ E). rewrite drop_app_le, map_app; [done|]. rewrite take_length. lia.
Qed.
Lemma comments_ok_of : comments_before [KNewLine; KSpace; KCurlyL] (map kd ls) -> comments_ok h0 ls.
Proof. intros H l Hl Kl. apply elem_of_list_lookup in Hl as [j Hj]. by apply (comments_at _ j l H). Qed.

(** ** Structs *)
Lemma row_newline i p f s : base (s_heap s) -> KT (s_heap s) -> from i p -> 6 * N i + 8 <= f ->
  wp (struct_row f p []) (fun r s' => base (s_heap s') /\ KT (s_heap s') /\ from i r /\ forall l, r = Some l -> kind_of (s_heap s') (Some l) = KNewLine) s.
Proof.
  intros B HK F Lf. assert (I : inv h0 ls KT any s) by done. rewrite struct_row_eq. apply wp_bind. unfold row_name_count. apply wp_bind.
  eapply wp_scanM; [exact ND|exact Hval|done|exact F|]. intros r. apply wp_ret. eapply wp_mono.
  - apply (wp_walk h0 ls ND 0 KT any false i p [] _ _ f s (fun l s' => kind_of (s_heap s') (Some l) = KNewLine)); [done|done|lia|done|lia|].
    intros l j x s' El Lj I' _. assert (Fl : from 0 (Some l)) by (exists j; split; [lia|done]).
    unfold row_sw. apply wp_bind, wp_get_kind.
    destruct (kind_eqb _ KNewLine) eqn:E0; [apply kind_eqb_true in E0; by apply wp_ret|]. destruct (mem_kind _ _); [by apply wp_ret|].
    destruct (kind_eqb _ KRaw) eqn:E.
    { apply kind_eqb_true in E. destruct (negb _); apply wp_bind; (eapply set_kind_ok; [exact Hval|exact (HKk true 0)|exact I'|done|apply okk_base, mem_kind_true; reflexivity|rewrite E; apply mem_kind_true; reflexivity|]);
        intros s2 I2; by apply wp_ret. }
    destruct (kind_eqb _ KFunc) eqn:E2; [|by apply wp_ret].
    apply wp_bind. destruct (KT_block h0 ls W0 C0 true 0 f Hco) as (_ & _ & _ & IFR & _).
    eapply wp_mono; [apply (IFR _ j); [by right; left| |done|lia|by apply from_at|lia]|].
    + constructor; [|done]. by eapply (raw_hook_ok h0 ls Hval true 0 KT any (HKk true 0)).
    + intros r' s2 [I2 _]. by apply wp_ret.
  - intros r' s' ((B' & K' & _) & F' & H). done.
Qed.

(** Searching the first opening brace. *)
Lemma find_first n y f (s : st) : base (s_heap s) -> KT (s_heap s) -> ls !! n = Some y -> kd y ∉ KCurlyL :: refined -> kind_of (s_heap s) (Some y) = kd y -> (forall l, next_of (s_heap s) (Some l) = next_of h0 (Some l)) -> N n <= f ->
  wp (find_next f (Some y) [KCurlyL] opt0 []) (fun r s' => s' = s /\ from n r /\ forall l j, r = Some l -> ls !! j = Some l -> n < j /\ kd l = KCurlyL /\ KCurlyL ∉ between n j) s.
Proof.
  intros B HK Ey Ky Hy Hn Lf. unfold find_next. apply wp_bind.
  eapply (wp_iterM h0 ls (fun q _ s' => s' = s /\ forall l j, q = Some l -> ls !! j = Some l -> j = n \/ n < j /\ KCurlyL ∉ between n j) _ n);
    [| | |exact (Nat.le_refl n)|by apply from_at|done|].
  - intros q w s' [-> _]. done.
  - intros c s' [-> _]. apply wp_ret. done.
  - intros l j c s' El Lj (-> & H). apply wp_bind. unfold wp at 1, handle_hook. cbn [fold_left]. apply wp_bind, wp_get_kind, wp_ret. cbn [fst snd].
    assert (Kl : kind_of (s_heap s) (Some l) = KCurlyL <-> kd l = KCurlyL).
    { split; intros E.
      - apply (kind_back (s_heap s) l _ B E). apply mem_kind_false. reflexivity.
      - rewrite <- E. apply (kt_kind _ _ _ HK); [by eapply elem_of_list_lookup_2|]. rewrite E. apply mem_kind_true. reflexivity. }
    destruct (count_step _ c) as [[c1 c2] c3]. unfold find_decide. cbn [o_inP o_inC o_inS o_outP o_outC o_outS opt0 o_rev andb].
    rewrite contain_new. case_bool_decide as D.
    + apply elem_of_list_singleton, Kl in D. apply wp_ret. cbn [snd]. split; [done|]. split; [by exists j|]. intros l' j' [= <-] Ej'. assert (j' = j) as -> by (by eapply at_inj).
      destruct (H l j eq_refl El) as [-> |[? ?]]; [|done]. exfalso. assert (l = y) as -> by congruence. apply Ky. rewrite D. by left.
    + cbn [negb]. split; [done|]. split; [done|]. intros l' j'. rewrite Hn, (nx0 j l El). intros E1 E2. assert (j' = S j) as -> by (by eapply at_inj).
      right. split; [lia|]. destruct (H l j eq_refl El) as [-> |[L Hb]]; [rewrite between_0; apply not_elem_of_nil|].
      rewrite (between_S n j l El L), elem_of_app, elem_of_list_singleton. intros [?|Q]; [done|]. apply D, elem_of_list_singleton, Kl. done.
  - split; [done|]. intros l j [= <-] Ej. left. by eapply at_inj.
Qed.
Lemma line_next xs k : k = KNewLine \/ ((k = KComment \/ k = KCurlyL) /\ line_begins xs) -> line_begins (xs ++ [k]).
Proof.
  intros [-> |[Hk (us & b & mid & -> & Hm & Hb)]].
  - exists xs, KNewLine, []. split; [done|]. split; [intros k Hk; by apply elem_of_nil in Hk|by left].
  - exists us, b, (mid ++ [k]). split; [by rewrite <- app_assoc|]. split; [|done]. intros k'. rewrite elem_of_app, elem_of_list_singleton. intros [?| ->]; auto.
Qed.
Lemma struct_text n y f (s : st) : base (s_heap s) -> KT (s_heap s) -> ls !! n = Some y -> kd y = KStruct -> kind_of (s_heap s) (Some y) = kd y ->
  (forall l, next_of (s_heap s) (Some l) = next_of h0 (Some l)) -> 6 * N n + 8 <= f ->
  wp (struct_run f (Some y) []) (fun r s' => base (s_heap s') /\ KT (s_heap s') /\ forall l j, r = Some l -> ls !! j = Some l -> n < j /\ kd l = KCurlyR /\ line_begins (between n j)) s.
Proof.
  intros B HK Ey Ky Hy Hn Lf. rewrite struct_run_eq. apply wp_bind.
  eapply wp_mono; [apply (find_first n); [done|done|done|rewrite Ky; apply mem_kind_false; reflexivity|done|done|lia]|].
  intros m s' (-> & Fm & Hm). cbv beta. apply wp_bind, wp_get_next. unfold walk. apply wp_bind.
  eapply (wp_iterM h0 ls (fun q w s' => base (s_heap s') /\ KT (s_heap s') /\
    ((w = mkWl false None tt /\ forall l j, q = Some l -> ls !! j = Some l -> n < j /\ line_begins (between n j)) \/
     (exists t jt, w = mkWl false (Some t) tt /\ ls !! jt = Some t /\ n < jt /\ kind_of (s_heap s') (Some t) = KNewLine) \/ w_skip w = true)) _ (S n)).
  - intros q w s' [? _]. done.
  - intros w s' (B1 & K1 & _). by apply wp_ret.
  - intros l j w s' El Lj (B1 & K1 & H).
    assert (Il : l ∈ ls) by (by eapply elem_of_list_lookup_2).
    assert (Go : forall k, kind_of (s_heap s') (Some l) = k -> k = KNewLine \/ ((k = KComment \/ k = KCurlyL) /\ line_begins (between n j)) ->
       forall l' j', next_of (s_heap s') (Some l) = Some l' -> ls !! j' = Some l' -> n < j' /\ line_begins (between n j')).
    { intros k Ek Hk l' j' E1 E2. assert (Ak : k ∈ anchors) by (destruct Hk as [-> |[[-> | ->] _]]; apply mem_kind_true; reflexivity).
      assert (E0 : kd l = k). { rewrite <- Ek. apply (KT_back h0 ls _ _ B1). by rewrite Ek. }
      destruct (kt_next _ _ _ K1 l Il) as [Q|Q]; [by rewrite E0| |congruence]. rewrite Q, (nx0 j l El) in E1. assert (j' = S j) as -> by (by eapply at_inj).
      split; [lia|]. rewrite (between_S n j l El) by lia. apply line_next. cbv beta in *. by rewrite E0. }
    destruct H as [[-> H]|[(t & jt & -> & Et & Lt & Kt)|Ew]].
    + destruct (H l j eq_refl El) as [Hj Hl]. apply wb_run. unfold st_sw. apply wp_bind, wp_get_kind.
      destruct (kind_eqb _ KCurlyR) eqn:E1.
      { apply kind_eqb_true in E1. apply wp_ret. cbn [fst snd]. apply wp_ret. cbn [snd]. split; [done|]. split; [done|]. intros l' j' [= <-] Ej'.
        assert (j' = j) as -> by (by eapply at_inj). split; [done|]. split; [|done]. apply (kind_back _ l _ B1 E1). apply mem_kind_false. reflexivity. }
      destruct (mem_kind _ _) eqn:E2.
      { apply mem_kind_true in E2. apply wp_ret. cbn [fst snd]. split; [done|]. split; [done|]. split; [done|]. left. split; [done|]. apply (Go _ eq_refl).
        rewrite !elem_of_cons in E2. destruct E2 as [E2|[E2|[E2|E2]]]; [auto..|by apply elem_of_nil in E2]. }
      apply wp_bind. eapply wp_mono; [apply (row_newline j); [done|done|by apply from_at|lia]|]. intros r s3 (B3 & K3 & F3 & H3). cbv beta. apply wp_ret. cbn [fst snd].
      split; [done|]. split; [done|]. split; [done|]. right. destruct r as [t|]; [|by right]. left. destruct F3 as (jt & Ljt & Ejt). exists t, jt. split; [done|]. split; [done|]. split; [lia|by apply H3].
    + destruct (decide (l = t)) as [->|D].
      * apply wb_target. unfold st_sw. apply wp_bind, wp_get_kind. rewrite Kt. kred. apply wp_ret. cbn [fst snd]. split; [done|]. split; [done|]. split; [done|]. left. split; [done|].
        apply (Go _ Kt). by left.
      * apply wb_skip; [done|]. cbn [fst snd]. split; [done|]. split; [done|]. split; [done|]. right. left. by exists t, jt.
    + unfold walk_body. apply wp_bind. unfold wp at 1, handle_hook. cbn [fold_left]. rewrite Ew. apply wp_ret. cbn [fst snd]. split; [done|]. split; [done|]. split; [done|]. by right; right.
  - exact (Nat.le_refl (S n)).
  - eapply base_next; [exact B|exact Fm].
  - lia.
  - split; [done|]. split; [done|]. left. split; [done|]. intros l j E1 E2. destruct m as [m|]; [|done]. destruct Fm as (jm & Ljm & Ejm).
    destruct (Hm m jm eq_refl Ejm) as (L & Km & Hb). rewrite Hn, (nx0 jm m Ejm) in E1. assert (j = S jm) as -> by (by eapply at_inj). split; [lia|].
    rewrite (between_S n jm m Ejm L). exists (between n jm), KCurlyL, []. cbv beta. rewrite Km. split; [done|]. split; [intros k Hk; by apply elem_of_nil in Hk|]. by right.
Qed.

(** ** Interfaces and function types *)
Lemma interface_text n y f (s : st) : base (s_heap s) -> KT (s_heap s) -> ls !! n = Some y -> kd y = KInterface -> 6 * N n + 8 <= f ->
  wp (interface_run f (Some y) []) (fun r s' => base (s_heap s') /\ KT (s_heap s') /\ forall l j, r = Some l -> ls !! j = Some l -> n < j /\ kd l = KCurlyR) s.
Proof.
  intros B HK Ey Ky Lf. eapply wp_mono.
  - apply (interface_ok h0 ls ND Hval Hout true 0 KT (HKk true 0) (HKm 0) n); [done|done|lia|by apply from_at|done].
  - intros r s' ((B' & K' & _) & F' & H). split; [done|]. split; [done|]. intros l j -> Ej. specialize (H l eq_refl).
    assert (K0 : kd l = KCurlyR) by (apply (kind_back _ l _ B' H); apply mem_kind_false; reflexivity). split; [|done].
    destruct F' as (j' & Lj & Ej'). assert (j' = j) as -> by (by eapply at_inj). assert (j <> n); [|lia]. intros ->. assert (l = y) as -> by congruence. rewrite Ky in K0. done.
Qed.
Lemma general_newline i p f s : base (s_heap s) -> KT (s_heap s) -> from i p -> 6 * N i + 7 <= f ->
  wp (general_func f p [KNewLine] []) (fun r s' => base (s_heap s') /\ KT (s_heap s') /\ from i r /\ forall l, r = Some l -> kind_of (s_heap s') (Some l) = KNewLine) s.
Proof.
  intros B HK F Lf. destruct f as [|f]; [lia|]. rewrite general_func_eq. apply wp_bind, wp_get_kind, wp_bind.
  eapply (wp_mono _ (fun q s' => s' = s /\ from i q)).
  { destruct (kind_eqb _ _); [|by apply wp_ret]. apply wp_bind. unfold wp at 1, handle_hook. cbn [fold_left]. apply wp_get_next. split; [done|]. eapply base_next'; [exact B|done]. }
  intros q s' [-> Fq]. cbv beta. destruct (KT_block h0 ls W0 C0 true 0 f Hco) as (IPR & _ & _ & _ & _ & _ & ISR). eapply wp_mono.
  - apply (wp_walk h0 ls ND 0 KT any false i q [] _ _ f s (fun l s' => contain (cset_new [KNewLine]) (kind_of (s_heap s') (Some l)) = true)); [done|done|lia|done|lia|].
    intros l j x s' El Lj I' _. apply (gf_sw_ok h0 ls Hval true 0 KT any (HKk true 0)) with (j := j); try done; lia.
  - intros r s' ((B' & K' & _) & F' & H). split; [done|]. split; [done|]. split; [done|]. intros l ->. specialize (H l eq_refl). rewrite contain_new in H.
    apply bool_decide_eq_true, elem_of_list_singleton in H. done.
Qed.
Lemma functype_text n y f (s : st) : base (s_heap s) -> KT (s_heap s) -> ls !! n = Some y -> kd y = KFunc -> 6 * N n + 9 <= f ->
  wp (func_run f ff_n (Some y) []) (fun r s' => base (s_heap s') /\ KT (s_heap s') /\ forall l j, r = Some l -> ls !! j = Some l -> n < j /\ kd l = KNewLine) s.
Proof.
  intros B HK Ey Ky Lf.
  enough (G : wp (func_run f ff_n (Some y) []) (fun r s' => base (s_heap s') /\ KT (s_heap s') /\ from n r /\ forall l, r = Some l -> kind_of (s_heap s') (Some l) = KNewLine) s).
  { eapply wp_mono; [exact G|]. intros r s' (B' & K' & F' & H). split; [done|]. split; [done|]. intros l j -> Ej. specialize (H l eq_refl).
    assert (K0 : kd l = KNewLine) by (apply (kind_back _ l _ B' H); apply mem_kind_false; reflexivity). split; [|done].
    destruct F' as (j' & Lj & Ej'). assert (j' = j) as -> by (by eapply at_inj). assert (j <> n); [|lia]. intros ->. assert (l = y) as -> by congruence. rewrite Ky in K0. done. }
  destruct f as [|f]; [lia|]. rewrite func_run_eq. cbn [ff_param ff_iface ff_lead ff_n]. apply wp_bind.
  eapply wp_mono; [apply (is_temp_ok h0 ls n); [done|by apply from_at|lia]|]. intros tmp s' ->. cbv beta.
  destruct tmp. { apply general_newline; [done|done|by apply from_at|lia]. }
  unfold fr_main. eapply wp_mono.
  - apply (wp_walkJ h0 ls ND 0 KT any (fun fm => fm = (true, false)) false n (Some y) [] _ _ f s (fun l s' => kind_of (s_heap s') (Some l) = KNewLine)); [done|done|lia|by apply from_at|lia|done|].
    intros l j x s' El Lj I' -> _. unfold fr_sw. apply wp_bind, wp_get_kind. cbn [fst snd negb].
    destruct (kind_eqb _ KNewLine) eqn:E; [apply kind_eqb_true in E; by apply wp_ret|].
    apply wp_bind. eapply wp_mono; [apply (general_newline n); [apply I'|apply I'|by apply from_at|lia]|]. intros r s2 (B2 & K2 & _). by apply wp_ret.
  - intros r s' ((B' & K' & _) & F' & H). done.
Qed.
End rest.

(** ** The header *)
Section header.
Context (x0 x1 x2 x3 y : loc) (gl bl : list loc) (Els : ls = x0 :: x1 :: x2 :: gl ++ x3 :: y :: bl).
Context (K0 : kind0 x0 = KType) (K1 : kind0 x1 = KSpace) (K2 : kind0 x2 = KRaw) (K3 : kind0 x3 = KSpace).
Context (Hg : gl = [] \/ exists a ps c, gl = a :: ps ++ [c] /\ kind0 a = KSquareL /\ squares (map (fun l => kind0 l) ps) /\ kind0 c = KSquareR).
Definition h1 : heap := set_kind h0 (Some x2) KTypeName.
Let In2 : x2 ∈ ls. Proof. rewrite Els. right. right. by left. Qed.
Let V2 : valid h0 x2. Proof. apply Hval, In2. Qed.
Lemma h1_base : base h1.
Proof. eapply (base_set_kind h0 ls Hval h0 0 (Some x2)); [by apply base_init|exists 2; split; [lia|by rewrite Els]|apply mem_kind_true; reflexivity]. Qed.
Lemma h1_KT : KT h1.
Proof. apply (KT_set h0 ls C0); [by apply base_init|by apply KT_init|apply In2|]. rewrite K2. apply mem_kind_false. reflexivity. Qed.
Lemma h1_next l : next_of h1 (Some l) = next_of h0 (Some l).
Proof. apply links_set_kind. Qed.
Lemma h1_kind l : l <> x2 -> kind_of h1 (Some l) = kind0 l.
Proof. intros D. unfold h1. rewrite kind_set_kind by apply V2. by rewrite decide_False by congruence. Qed.
Lemma h1_map us : x2 ∉ us -> map (fun l => kind_of h1 (Some l)) us = map (fun l => kind0 l) us.
Proof. intros H. apply map_ext_in. intros l Hl. apply h1_kind. intros ->. apply H. by apply elem_of_list_In. Qed.
Lemma h1_nseg us : forall pre suf, ls = pre ++ us ++ suf -> nseg h1 (head (us ++ suf)) us (head suf).
Proof.
  induction us as [|u us IH]; intros pre suf E; cbn [NodeChain.nseg app head]; [done|]. split; [done|]. rewrite h1_next.
  assert (next_of h0 (Some u) = head (us ++ suf)) as ->. { apply (chain_next h0 pre u). pose proof C0 as C. rewrite E in C. exact C. }
  apply (IH (pre ++ [u])). rewrite E. by rewrite <- app_assoc.
Qed.
Let ndx : x2 ∉ gl ++ x3 :: y :: bl /\ x1 <> x2 /\ x0 <> x2.
Proof.
  pose proof ND as D. rewrite Els in D. apply NoDup_cons in D as [D0 D]. apply NoDup_cons in D as [D1 D]. apply NoDup_cons in D as [D2 D].
  split; [done|]. split; intros ->; [apply D1; by left|apply D0; right; by left].
Qed.
Lemma ty_header f b Q : 2 * length ls <= f ->
  (forall fuel', S (length ls) <= fuel' -> wp (iterM fuel' (walk_body true [] (ty_sw f [])) (Some y) (mkWl false None (true, true))) Q (mkSt h1 b)) ->
  wp (iterM f (walk_body true [] (ty_sw f [])) (head ls) (mkWl false None (false, false))) Q (mkSt h0 b).
Proof.
  intros Lf H. destruct ndx as (D2 & D1 & D0).
  assert (Ln : length ls = 5 + length gl + length bl) by (rewrite Els; cbn [length]; rewrite app_length; cbn [length]; lia).
  rewrite Els at 1. cbn [head].
  assert (N0 : next_of h0 (Some x0) = Some x1) by (rewrite (nx0 0 x0); by rewrite Els).
  assert (N1 : next_of h0 (Some x1) = Some x2) by (rewrite (nx0 1 x1); by rewrite Els).
  assert (N2 : next_of h1 (Some x2) = head (gl ++ x3 :: y :: bl)). { rewrite h1_next, (nx0 2 x2); rewrite Els; [|done]. by destruct gl. }
  assert (N3 : next_of h1 (Some x3) = Some y). { pose proof (h1_nseg [x3] (x0 :: x1 :: x2 :: gl) (y :: bl)) as G. destruct G as [_ G]; [by rewrite Els|]. exact G. }
  apply step_iterM; [lia|]. apply wb_run. unfold ty_sw at 1. apply wp_bind, wp_get_kind. cbn [s_heap]. rewrite K0. kred. apply wp_ret. cbn [fst snd s_heap]. rewrite N0.
  apply step_iterM; [lia|]. apply wb_run. unfold ty_sw at 1. apply wp_bind, wp_get_kind. cbn [s_heap]. rewrite K1. kred. apply wp_ret. cbn [fst snd s_heap]. rewrite N1.
  apply step_iterM; [lia|]. apply wb_run. unfold ty_sw at 1. apply wp_bind, wp_get_kind. cbn [s_heap]. rewrite K2. kred. apply wp_bind.
  unfold wp at 1, do_set_kind. cbn [s_heap s_buf]. fold h1. apply wp_ret. cbn [fst snd s_heap]. rewrite N2.
  assert (Sp : forall fuel', S (S (length ls)) <= fuel' -> wp (iterM fuel' (walk_body true [] (ty_sw f [])) (Some x3) (mkWl false None (true, false))) Q (mkSt h1 b)).
  { intros fuel' Lf'. apply step_iterM; [lia|]. apply wb_run. unfold ty_sw at 1. apply wp_bind, wp_get_kind. cbn [s_heap].
    rewrite h1_kind by (intros ->; apply D2; apply elem_of_app; right; by left). rewrite K3. kred. apply wp_ret. cbn [fst snd s_heap]. rewrite N3. apply H. lia. }
  destruct Hg as [Eg|(a & ps & c & Eg & Ka & Sq & Kc)].
  - rewrite Eg in *. cbn [app head]. apply Sp. cbn [length] in Ln. lia.
  - pose proof (h1_nseg gl [x0; x1; x2] (x3 :: y :: bl)) as Sg. specialize (Sg Els). rewrite Eg in Sg, D2 |- *. cbn [app head] in Sg |- *.
    assert (Lg : length gl = 2 + length ps) by (rewrite Eg; cbn [length]; rewrite app_length; cbn [length]; lia).
    rewrite <- app_comm_cons, <- app_assoc in D2. cbn [app] in D2.
    assert (Da : a <> x2) by (intros ->; apply D2; by left).
    assert (Dp : x2 ∉ ps) by (intros Q1; apply D2; right; apply elem_of_app; by left).
    assert (Dc : c <> x2) by (intros ->; apply D2; right; apply elem_of_app; right; by left).
    apply step_iterM; [lia|]. apply wb_run. unfold ty_sw at 1. apply wp_bind, wp_get_kind. cbn [s_heap]. rewrite h1_kind, Ka by done. kred. apply wp_bind.
    eapply wp_mono; [apply (square_pure a ps c (Some x3)); cbn [s_heap]; [exact Sg|by rewrite h1_map|by rewrite h1_kind|by rewrite h1_kind|lia]|].
    intros r s' [-> ->]. cbv beta. apply wp_ret. cbn [fst snd s_heap]. change (ptr_eqb (Some c) None) with false.
    cbn [NodeChain.nseg] in Sg. destruct Sg as [_ Sg]. apply nseg_app in Sg as (m & S1 & S2). cbn [NodeChain.nseg] in S2. destruct S2 as [-> S2].
    apply (jump_over _ _ _ _ ps); cbn [s_heap]; [done| |lia|].
    { pose proof ND as D. rewrite Els, Eg in D. do 3 (apply NoDup_cons in D as [_ D]). rewrite <- app_comm_cons, <- app_assoc in D. apply NoDup_cons in D as [_ D].
      apply NoDup_app in D as (_ & D & _). intros Hc. apply (D c Hc). by left. }
    apply step_iterM; [lia|]. unfold walk_body at 1. apply wp_bind. unfold wp at 1, handle_hook. cbn [fold_left w_skip w_jump w_x].
    unfold ptr_eqb. rewrite (bool_decide_eq_false_2 (Some c = None)) by done. rewrite (bool_decide_eq_true_2 (Some c = Some c)) by done. cbn [negb andb].
    apply wp_ret. cbn [fst snd s_heap]. rewrite S2. apply Sp. lia.
Qed.
(** The whole declaration, when [y] is the keyword. *)
Lemma ty_declared f b body : comments_ok h0 ls -> map (fun l => kind0 l) bl = body -> 8 * length ls + 8 <= f ->
  kind0 y = KStruct /\ (forall xs ys, body = xs ++ KCurlyR :: ys -> line_begins xs -> simple ys) \/
  kind0 y = KInterface /\ (forall xs ys, body = xs ++ KCurlyR :: ys -> simple ys) \/
  kind0 y = KFunc /\ (forall xs ys, body = xs ++ KNewLine :: ys -> simple ys) ->
  wp (type_run f (head ls) []) (fun _ s' => base (s_heap s') /\ KT (s_heap s')) (mkSt h0 b).
Proof.
  intros Hco Eb Lf H. rewrite type_run_eq. apply wp_bind, wp_get_kind. cbn [s_heap]. rewrite Els at 1. cbn [head]. rewrite K0. kred. unfold walk. apply wp_bind.
  apply ty_header; [lia|]. intros fuel' Lf'.
  set (n := 4 + length gl).
  assert (Els' : ls = (x0 :: x1 :: x2 :: gl ++ [x3]) ++ y :: bl) by (rewrite Els; cbn [app]; by rewrite <- app_assoc).
  assert (En : n = length (x0 :: x1 :: x2 :: gl ++ [x3])) by (cbn [length]; rewrite app_length; cbn [length]; unfold n; lia).
  assert (Ey : ls !! n = Some y) by (rewrite Els'; by apply list_lookup_middle).
  assert (Ea : after n = body).
  { rewrite <- Eb. unfold after. f_equal. rewrite Els'. change (y :: bl) with ([y] ++ bl). rewrite app_assoc. apply drop_app_alt. rewrite app_length. cbn [length]. cbn [length] in En. lia. }
  destruct ndx as (D2 & _). assert (Dy : y <> x2) by (intros ->; apply D2; apply elem_of_app; right; right; by left).
  assert (Ky : kind_of h1 (Some y) = kind0 y) by (by apply h1_kind).
  assert (Ln : n < length ls) by (by eapply lookup_lt_Some).
  assert (Rest : forall r (s' : st), base (s_heap s') -> KT (s_heap s') -> (forall j l, r = Some l -> ls !! j = Some l -> simple_from (S j)) ->
    wp (iterM (pred fuel') (walk_body true [] (ty_sw f [])) (next_of (s_heap s') (Some y)) (mkWl (ptr_eqb r None) r (true, true)))
      (fun a s'' => wp (ret a.2) (fun _ s3 => base (s_heap s3) /\ KT (s_heap s3)) s'') s').
  { intros r s' B' K' Hr. eapply wp_mono.
    - apply (ty_after Hco); [done|done|done|eapply from_mono; [|eapply base_next; [exact B'|by apply from_at]]; lia|lia|lia].
    - intros a s'' H''. by apply wp_ret. }
  apply step_iterM; [lia|]. apply wb_run. unfold ty_sw at 1. apply wp_bind, wp_get_kind. cbn [s_heap]. rewrite Ky.
  assert (Sm : forall j l, ls !! j = Some l -> n < j -> (forall xs ys, body = xs ++ kind0 l :: ys -> xs = between n j -> simple ys) -> simple_from (S j)).
  { intros j l El Lj Hs. apply simple_after. change (simple (after j)). apply (Hs (between n j)); [|done]. rewrite <- Ea. by apply body_split. }
  destruct H as [[E H]|[[E H]|[E H]]]; rewrite E in *; kred; apply wp_bind.
  - eapply wp_mono; [apply (struct_text Hco n); cbn [s_heap]; [apply h1_base|apply h1_KT|done|done|by rewrite E|apply h1_next|lia]|].
    intros r s' (B' & K' & Hr). cbv beta. apply wp_ret. cbn [fst snd]. apply Rest; [done|done|]. intros j l Er El. destruct (Hr l j Er El) as (Lj & Kl & Hb).
    apply (Sm j l El Lj). intros xs ys Eq ->. cbv beta in Kl. rewrite Kl in Eq. by apply (H _ _ Eq).
  - eapply wp_mono; [apply (interface_text Hco n); cbn [s_heap]; [apply h1_base|apply h1_KT|done|done|lia]|].
    intros r s' (B' & K' & Hr). cbv beta. apply wp_ret. cbn [fst snd]. apply Rest; [done|done|]. intros j l Er El. destruct (Hr l j Er El) as (Lj & Kl).
    apply (Sm j l El Lj). intros xs ys Eq ->. cbv beta in Kl. rewrite Kl in Eq. by apply (H _ _ Eq).
  - eapply wp_mono; [apply (functype_text Hco n); cbn [s_heap]; [apply h1_base|apply h1_KT|done|done|lia]|].
    intros r s' (B' & K' & Hr). cbv beta. apply wp_ret. cbn [fst snd]. apply Rest; [done|done|]. intros j l Er El. destruct (Hr l j Er El) as (Lj & Kl).
    apply (Sm j l El Lj). intros xs ys Eq ->. cbv beta in Kl. rewrite Kl in Eq. by apply (H _ _ Eq).
Qed.
End header.


(** ** All declarations *)
Lemma group_text f b xs k ys : map (fun l => kind0 l) ls = KType :: xs ++ k :: ys -> KRaw ∉ xs -> k = KNewLine \/ k = KCurlyR -> length ls <= f ->
  wp (type_run f (head ls) []) (fun _ s' => base (s_heap s') /\ KT (s_heap s')) (mkSt h0 b).
Proof.
  intros Em Nr Hk Lf. assert (B : base h0) by (by apply base_init).
  assert (Kj : forall j l, ls !! j = Some l -> ((KType :: xs) ++ k :: ys) !! j = Some (kind0 l)).
  { intros j l El. change ((KType :: xs) ++ k :: ys) with (KType :: xs ++ k :: ys). rewrite <- Em.
    change (map ?f ls) with (f <$> ls). rewrite list_lookup_fmap, El. done. }
  assert (Eh : exists a, ls !! 0 = Some a /\ head ls = Some a). { destruct ls as [|a r]; [done|]. by exists a. }
  destruct Eh as (a & Ea & ->). rewrite type_run_eq. apply wp_bind, wp_get_kind. cbn [s_heap]. pose proof (Kj 0 a Ea) as Ka. injection Ka as <-. kred. unfold walk. apply wp_bind.
  eapply (wp_iterM h0 ls (fun q w s' => s' = mkSt h0 b /\ w = mkWl false None (false, false) /\ forall l j, q = Some l -> ls !! j = Some l -> j <= S (length xs)) _ 0);
    [| | |exact (Nat.le_refl 0)|by apply from_at|lia|].
  - intros q w s' [-> _]. done.
  - intros w s' [-> _]. apply wp_ret. split; [done|by apply KT_init].
  - intros l j w s' El _ (-> & -> & H). specialize (H l j eq_refl El). apply wb_run. unfold ty_sw. apply wp_bind, wp_get_kind. cbn [s_heap negb].
    destruct (mem_kind _ _) eqn:E1. { apply wp_ret. cbn [fst snd]. apply wp_ret. split; [done|by apply KT_init]. }
    apply mem_kind_false in E1.
    destruct (kind_eqb _ KRaw) eqn:E2.
    { exfalso. apply kind_eqb_true in E2. pose proof (Kj j l El) as Ej. rewrite E2 in Ej. destruct (decide (j = S (length xs))) as [->|D].
      - rewrite list_lookup_middle in Ej by done. destruct Hk as [-> | ->]; done.
      - apply Nr. destruct j as [|j]; [done|]. change ((xs ++ k :: ys) !! j = Some KRaw) in Ej. rewrite lookup_app_l in Ej by lia. by eapply elem_of_list_lookup_2. }
    apply wp_ret. cbn [fst snd s_heap]. split; [done|]. split; [done|]. split; [done|]. intros l' j'. rewrite (nx0 j l El). intros E3 E4.
    assert (j' = S j) as -> by (by eapply at_inj). destruct (decide (j = S (length xs))) as [->|D]; [|lia]. exfalso. apply E1. pose proof (Kj _ l El) as Ej. rewrite list_lookup_middle in Ej by done. injection Ej as <-.
    destruct Hk as [-> | ->]; apply mem_kind_true; reflexivity.
  - split; [done|]. split; [done|]. intros l j [= <-] Ej. assert (j = 0) by (by eapply at_inj). lia.
Qed.

Lemma declared_text f b kw body : declares kw (map (fun l => kind0 l) ls) body -> comments_before [KNewLine; KSpace; KCurlyL] (map (fun l => kind0 l) ls) -> 8 * length ls + 8 <= f ->
  kw = KStruct /\ (forall xs ys, body = xs ++ KCurlyR :: ys -> line_begins xs -> simple ys) \/
  kw = KInterface /\ (forall xs ys, body = xs ++ KCurlyR :: ys -> simple ys) \/
  kw = KFunc /\ (forall xs ys, body = xs ++ KNewLine :: ys -> simple ys) ->
  wp (type_run f (head ls) []) (fun _ s' => base (s_heap s') /\ KT (s_heap s')) (mkSt h0 b).
Proof.
  intros Hd Hc Lf H. assert (Hco : comments_ok h0 ls) by (by apply comments_ok_of).
  assert (G : exists x0 x1 x2 x3 y gl bl, ls = x0 :: x1 :: x2 :: gl ++ x3 :: y :: bl /\ kind0 x0 = KType /\ kind0 x1 = KSpace /\ kind0 x2 = KRaw /\ kind0 x3 = KSpace /\ kind0 y = kw /\
    (gl = [] \/ exists a ps c, gl = a :: ps ++ [c] /\ kind0 a = KSquareL /\ squares (map (fun l => kind0 l) ps) /\ kind0 c = KSquareR) /\ map (fun l => kind0 l) bl = body).
  { destruct Hd as [E|(ps & Sq & E)].
    - destruct ls as [|x0 [|x1 [|x2 [|x3 [|y bl]]]]]; try done. cbn [map app] in E. injection E as E0 E1 E2 E3 E4 E5.
      exists x0, x1, x2, x3, y, [], bl. split_and!; try done. by left.
    - destruct ls as [|x0 [|x1 [|x2 [|a tl]]]]; try done. cbn [map app] in E. injection E as E0 E1 E2 E3 E4.
      apply map_eq_app in E4 as (pl & tl2 & -> & Ep & E4). destruct tl2 as [|c [|x3 [|y bl]]]; try done. cbn [map] in E4. injection E4 as E5 E6 E7 E8.
      exists x0, x1, x2, x3, y, (a :: pl ++ [c]), bl. split_and!; try done.
      + cbn [app]. by rewrite <- app_assoc.
      + right. exists a, pl, c. split_and!; try done. by rewrite Ep. }
  destruct G as (x0 & x1 & x2 & x3 & y & gl & bl & Els & K0 & K1 & K2 & K3 & Ky & Hg & Eb).
  apply (ty_declared x0 x1 x2 x3 y gl bl Els K0 K1 K2 K3 Hg f b body Hco Eb Lf). by rewrite Ky.
Qed.

Lemma keeps_text f b : keeps (map (fun l => kind0 l) ls) -> 8 * length ls + 8 <= f ->
  wp (reset_kind f (head ls)) (fun _ s' => base (s_heap s') /\ KT (s_heap s')) (mkSt h0 b).
Proof.
  intros Hk Lf. assert (B : base h0) by (by apply base_init). pose proof (KT_init h0 ls C0) as HK. unfold reset_kind. apply wp_bind, wp_get_kind. cbn [s_heap].
  assert (Hd : forall k, head (map (fun l => kind0 l) ls) = Some k -> kind_of h0 (head ls) = k) by (intros k; destruct ls; [done|]; cbn; congruence).
  inversion Hk as [ks N1 N2 E|ks Hc E|xs k ys Nr Hkk E|ks Hs E|ks body D Hc Hs E|ks body D Hc Hs E|ks body D Hc Hs E].
  - assert (kind_of h0 (head ls) <> KFunc /\ kind_of h0 (head ls) <> KType) as [M1 M2].
    { destruct ls as [|a r]; [done|]. cbn in *. split; congruence. }
    rewrite (proj2 (kind_eqb_false _ _) M1), (proj2 (kind_eqb_false _ _) M2). by apply wp_ret.
  - rewrite (Hd KFunc) by (by rewrite <- E). kred. apply (func_text h0 ls W0 C0); [|done|done|lia]. apply comments_ok_of. by rewrite <- E.
  - rewrite (Hd KType) by (by rewrite <- E). kred. apply (group_text f b xs k ys); [by symmetry|done|done|lia].
  - rewrite (Hd KType) by (by rewrite <- E). kred. assert (Hs0 : simple_from 0) by (apply simple_after; rewrite drop_0; by rewrite <- E).
    apply plain_text; [by apply simple_ok|done|done|done|lia].
  - rewrite (Hd KType) by (destruct D as [-> |(ps & _ & ->)]; done). kred. apply (declared_text f b KStruct body); [done|done|lia|]. by left.
  - rewrite (Hd KType) by (destruct D as [-> |(ps & _ & ->)]; done). kred. apply (declared_text f b KInterface body); [done|done|lia|]. right. by left.
  - rewrite (Hd KType) by (destruct D as [-> |(ps & _ & ->)]; done). kred. apply (declared_text f b KFunc body); [done|done|lia|]. right. by right.
Qed.
End text.
