(** The refinement of a scope depends on nothing but the kinds of its own nodes,
    and treats their texts as opaque: a simulation between two heaps, under an
    injective renaming of locations and a relation between texts that is kept by
    concatenation. *)
From Verif Require Import Reset ResetSpec.

Section sim.
Context (T : str -> str -> Prop) (Tnil : T [] []) (Tapp : forall a b c d, T a b -> T c d -> T (a ++ c) (b ++ d)).
Context (rho : nat -> nat) (Hinj : forall a b, rho a = rho b -> a = b).

Definition Rp (p1 p2 : ptr) : Prop := p2 = rho <$> p1.
Record Rn (n1 n2 : node) : Prop :=
  { rn_kind : n_kind n2 = n_kind n1; rn_text : T (n_text n1) (n_text n2);
    rn_prev : Rp (n_prev n1) (n_prev n2); rn_next : Rp (n_next n1) (n_next n2) }.
Definition Ro (o1 o2 : option node) : Prop :=
  match o1, o2 with Some n1, Some n2 => Rn n1 n2 | None, None => True | _, _ => False end.
Record Rh (h1 h2 : heap) : Prop :=
  { rh_at : forall l, Ro (h1 !! l) (h2 !! rho l); rh_len : length h1 <= length h2 }.
Record Rs (s1 s2 : st) : Prop :=
  { rs_heap : Rh (s_heap s1) (s_heap s2); rs_buf : Forall2 Rp (s_buf s1) (s_buf s2) }.

Lemma Rp_eqb p1 p2 q1 q2 : Rp p1 p2 -> Rp q1 q2 -> ptr_eqb p2 q2 = ptr_eqb p1 q1.
Proof.
  unfold Rp, ptr_eqb. intros -> ->. apply bool_decide_ext. split; [|by intros ->].
  destruct p1, q1; cbn; intros E; try done. injection E as E. by rewrite (Hinj _ _ E).
Qed.
Lemma Rp_none : Rp None None. Proof. done. Qed.
Lemma Rp_some l : Rp (Some l) (Some (rho l)). Proof. done. Qed.
Lemma Rf {A} (d : A) (RA : A -> A -> Prop) f h1 h2 p1 p2 : RA d d -> (forall n1 n2, Rn n1 n2 -> RA (f n1) (f n2)) ->
  Rh h1 h2 -> Rp p1 p2 -> RA (field d f h1 p1) (field d f h2 p2).
Proof.
  intros Hd Hf H ->. destruct p1 as [l|]; [|done]. cbn. pose proof (rh_at _ _ H l) as E. unfold Ro in E.
  destruct (h1 !! l), (h2 !! rho l); try done. by apply Hf.
Qed.
Lemma Rkind h1 h2 p1 p2 : Rh h1 h2 -> Rp p1 p2 -> kind_of h1 p1 = kind_of h2 p2.
Proof. apply (Rf KNone eq); [done|]. intros n1 n2 H. symmetry. apply H. Qed.
Lemma Rtext h1 h2 p1 p2 : Rh h1 h2 -> Rp p1 p2 -> T (text_of h1 p1) (text_of h2 p2).
Proof. apply (Rf [] T); [done|]. intros n1 n2 H. apply H. Qed.
Lemma Rconcat b1 b2 : Forall2 T b1 b2 -> T (join b1) (join b2).
Proof. unfold join. induction 1 as [|x y b1 b2 E _ IH]; cbn [concat]; [done|]. by apply Tapp. Qed.
Lemma Rnext h1 h2 p1 p2 : Rh h1 h2 -> Rp p1 p2 -> Rp (next_of h1 p1) (next_of h2 p2).
Proof. apply (Rf None Rp); [done|]. intros n1 n2 H. apply H. Qed.
Lemma Rprev h1 h2 p1 p2 : Rh h1 h2 -> Rp p1 p2 -> Rp (prev_of h1 p1) (prev_of h2 p2).
Proof. apply (Rf None Rp); [done|]. intros n1 n2 H. apply H. Qed.

Lemma Ralter f1 f2 l h1 h2 : (forall n1 n2, Rn n1 n2 -> Rn (f1 n1) (f2 n2)) -> Rh h1 h2 -> Rh (alter f1 l h1) (alter f2 (rho l) h2).
Proof.
  intros Hf H. constructor; [|rewrite !alter_length; apply H]. intros j. pose proof (rh_at _ _ H j) as E.
  destruct (decide (j = l)) as [->|N].
  - rewrite !list_lookup_alter. unfold Ro in *. destruct (h1 !! l), (h2 !! rho l); cbn; try done. by apply Hf.
  - rewrite !list_lookup_alter_ne; [done|by intros X; apply N, Hinj|done].
Qed.
Lemma Rset_kind h1 h2 p1 p2 k : Rh h1 h2 -> Rp p1 p2 -> Rh (set_kind h1 p1 k) (set_kind h2 p2 k).
Proof. intros H ->. destruct p1 as [l|]; [|done]. cbn. apply Ralter; [|done]. intros n1 n2 []. by constructor. Qed.
Lemma Rwith_text t1 t2 l h1 h2 : T t1 t2 -> Rh h1 h2 -> Rh (alter (with_text t1) l h1) (alter (with_text t2) (rho l) h2).
Proof. intros Ht. apply Ralter. intros n1 n2 []. by constructor. Qed.
Lemma Rwith_prev p1 p2 l h1 h2 : Rp p1 p2 -> Rh h1 h2 -> Rh (alter (with_prev p1) l h1) (alter (with_prev p2) (rho l) h2).
Proof. intros P. apply Ralter. intros n1 n2 []. by constructor. Qed.
Lemma Rwith_next p1 p2 l h1 h2 : Rp p1 p2 -> Rh h1 h2 -> Rh (alter (with_next p1) l h1) (alter (with_next p2) (rho l) h2).
Proof. intros P. apply Ralter. intros n1 n2 []. by constructor. Qed.
Lemma Rset_prev h1 h2 n1 n2 p1 p2 : Rh h1 h2 -> Rp n1 n2 -> Rp p1 p2 -> Rh (set_prev h1 n1 p1) (set_prev h2 n2 p2).
Proof.
  intros H Hn Hp. pose proof (Rp_eqb _ _ _ _ Hn Hp) as E. pose proof (Rprev _ _ _ _ H Hn) as Q. unfold Rp in Hn. subst n2.
  destruct n1 as [l|]; [|done]. cbn [fmap option_fmap option_map] in *. unfold set_prev. rewrite E. destruct (ptr_eqb (Some l) p1); [done|].
  apply Rwith_prev; [done|]. unfold Rp in Q. rewrite Q. destruct (prev_of h1 (Some l)); cbn; [|done]. by apply Rwith_next.
Qed.
Lemma Rset_next h1 h2 n1 n2 p1 p2 : Rh h1 h2 -> Rp n1 n2 -> Rp p1 p2 -> Rh (set_next h1 n1 p1) (set_next h2 n2 p2).
Proof.
  intros H Hn Hp. pose proof (Rp_eqb _ _ _ _ Hn Hp) as E. pose proof (Rnext _ _ _ _ H Hn) as Q. unfold Rp in Hn. subst n2.
  destruct n1 as [l|]; [|done]. cbn [fmap option_fmap option_map] in *. unfold set_next. rewrite E. destruct (ptr_eqb (Some l) p1); [done|].
  apply Rwith_next; [done|]. unfold Rp in Q. rewrite Q. destruct (next_of h1 (Some l)); cbn; [|done]. by apply Rwith_prev.
Qed.
Lemma Risolate h1 h2 n1 n2 : Rh h1 h2 -> Rp n1 n2 -> Rh (isolate h1 n1) (isolate h2 n2).
Proof.
  intros H Hn. unfold isolate.
  assert (A : Rh (set_next h1 (prev_of h1 n1) None) (set_next h2 (prev_of h2 n2) None)) by (apply Rset_next; [done|by apply Rprev|done]).
  apply Rset_next; [|done|done]. apply Rset_prev; [|done|done]. apply Rset_prev; [done|by apply Rnext|done].
Qed.
Lemma Rreplace_next h1 h2 n1 n2 p1 p2 : Rh h1 h2 -> Rp n1 n2 -> Rp p1 p2 -> Rh (fst (replace_next h1 n1 p1)) (fst (replace_next h2 n2 p2)).
Proof.
  intros H Hn Hp. unfold replace_next. rewrite (Rp_eqb _ _ _ _ Hn Hp), (Rp_eqb _ _ _ _ (Rnext _ _ _ _ H Hn) Hp).
  destruct (_ || _); [done|]. cbn [fst].
  apply Rset_prev; [|by apply Rnext|done]. apply Rset_next; [|by apply Rprev|done].
  apply Rset_prev; [|done|done]. by apply Rset_next.
Qed.
Lemma Rcombine_loop l1 l2 : Forall2 Rp l1 l2 -> forall h1 h2 n1 n2 b1 b2, Rh h1 h2 -> Rp n1 n2 -> Forall2 T b1 b2 ->
  Rh (fst (combine_loop h1 n1 l1 b1)) (fst (combine_loop h2 n2 l2 b2)) /\ Forall2 T (snd (combine_loop h1 n1 l1 b1)) (snd (combine_loop h2 n2 l2 b2)).
Proof.
  induction 1 as [|p1 p2 l1 l2 P _ IH]; intros h1 h2 n1 n2 c1 c2 H Hn B; [done|]. cbn [combine_loop].
  rewrite (Rp_eqb _ _ _ _ P Rp_none), (Rp_eqb _ _ _ _ Hn P). destruct (_ || _); [by apply IH|].
  apply IH; [by apply Risolate|done|]. apply Forall2_app; [done|]. constructor; [by apply Rtext|constructor].
Qed.
Lemma Rcombine b k l1 l2 h1 h2 n1 n2 h1' n1' : Forall2 Rp l1 l2 -> Rh h1 h2 -> Rp n1 n2 -> Node.combine b h1 n1 k l1 = Ok (h1', n1') ->
  exists h2' n2', Node.combine b h2 n2 k l2 = Ok (h2', n2') /\ Rh h1' h2' /\ Rp n1' n2'.
Proof.
  intros F H Hn. pose proof (Rset_kind _ _ _ _ k H Hn) as Hk. unfold Node.combine. destruct F as [|a1 a2 l1 l2 A F].
  { intros [= <- <-]. by eexists _, _. }
  assert (Q : exists m1 m2 r1 r2, Rp m1 m2 /\ Forall2 Rp r1 r2 /\
    match n1 with None => a1 | Some _ => n1 end = m1 /\ match n1 with None => l1 | Some _ => a1 :: l1 end = r1 /\
    match n2 with None => a2 | Some _ => n2 end = m2 /\ match n2 with None => l2 | Some _ => a2 :: l2 end = r2).
  { unfold Rp in Hn. subst n2. destruct n1 as [n|]; cbn; repeat eexists; try done. by constructor. }
  destruct Q as (m1 & m2 & r1 & r2 & Hm & Hr & -> & -> & -> & ->).
  pose proof (Rcombine_loop _ _ Hr _ _ _ _ [text_of (set_kind h1 n1 k) m1] [text_of (set_kind h2 n2 k) m2] Hk Hm ltac:(constructor; [by apply Rtext|constructor])) as [G1 G2].
  destruct (combine_loop (set_kind h1 n1 k) m1 r1 _) as [h1c b1], (combine_loop (set_kind h2 n2 k) m2 r2 _) as [h2c b2]. cbn [fst snd] in *.
  unfold Rp in Hm. subst m2. destruct m1 as [m|]; [|done]. cbn. intros [= <- <-]. eexists _, _. split; [done|]. split; [|done]. apply Rwith_text; [|done]. apply Rconcat. destruct b; [|done]. by apply Forall2_reverse.
Qed.

(** ** Programs *)
Definition sim {A} (RA : A -> A -> Prop) (m1 m2 : M A) : Prop :=
  forall s1 s2 s1' a1, Rs s1 s2 -> m1 s1 = Ok (s1', a1) -> exists s2' a2, m2 s2 = Ok (s2', a2) /\ Rs s1' s2' /\ RA a1 a2.
Definition Rhook (k1 k2 : hook) : Prop := forall p1 p2 s1 s2, Rp p1 p2 -> Rs s1 s2 -> Rs (k1 p1 s1) (k2 p2 s2).
Notation Rhooks := (Forall2 Rhook).

Lemma sim_ret {A} (RA : A -> A -> Prop) a1 a2 : RA a1 a2 -> sim RA (ret a1) (ret a2).
Proof. intros H s1 s2 s1' a H' [= <- <-]. by eexists _, _. Qed.
Lemma sim_bind {A B} (RA : A -> A -> Prop) (RB : B -> B -> Prop) m1 m2 k1 k2 :
  sim RA m1 m2 -> (forall a1 a2, RA a1 a2 -> sim RB (k1 a1) (k2 a2)) -> sim RB (bind m1 k1) (bind m2 k2).
Proof.
  intros Hm Hk s1 s2 s1' b1 H. unfold bind. destruct (m1 s1) as [[t1 a1]| |] eqn:E; cbn [res_bind]; try done. intros E'.
  destruct (Hm _ _ _ _ H E) as (t2 & a2 & -> & Ht & Ha). cbn [res_bind]. by eapply Hk.
Qed.
Lemma sim_out {A} (RA : A -> A -> Prop) m : sim RA out m.
Proof. intros s1 s2 s1' a1 _ H. discriminate H. Qed.
Lemma sim_get_kind p1 p2 : Rp p1 p2 -> sim eq (get_kind p1) (get_kind p2).
Proof. intros P s1 s2 s1' a1 H [= <- <-]. eexists _, _. split; [done|]. split; [done|]. apply Rkind; [apply H|done]. Qed.
Lemma sim_get_next p1 p2 : Rp p1 p2 -> sim Rp (get_next p1) (get_next p2).
Proof. intros P s1 s2 s1' a1 H [= <- <-]. eexists _, _. split; [done|]. split; [done|]. apply Rnext; [apply H|done]. Qed.
Lemma sim_set_kind p1 p2 k : Rp p1 p2 -> sim eq (do_set_kind p1 k) (do_set_kind p2 k).
Proof. intros P s1 s2 s1' a1 H [= <- <-]. eexists _, _. split; [done|]. split; [|done]. constructor; [|apply H]. apply Rset_kind; [apply H|done]. Qed.
Lemma sim_hook p1 p2 hs1 hs2 : Rp p1 p2 -> Rhooks hs1 hs2 -> sim eq (handle_hook p1 hs1) (handle_hook p2 hs2).
Proof.
  intros P F s1 s2 s1' a1 H E. injection E as <- <-. eexists _, _. split; [done|]. split; [|done].
  revert s1 s2 H. induction F as [|k1 k2 hs1 hs2 K _ IH]; intros s1 s2 H; [done|]. cbn [fold_left]. apply IH. by apply K.
Qed.
Lemma Rlast l1 l2 : Forall2 Rp l1 l2 -> match last l1, last l2 with Some a, Some b => Rp a b | None, None => True | _, _ => False end.
Proof.
  induction 1 as [|a b l1 l2 R F IH]; [done|]. destruct F; [done|]. exact IH.
Qed.
Lemma Rau l1 l2 p1 p2 : Forall2 Rp l1 l2 -> Rp p1 p2 -> Forall2 Rp (append_unrepeatable l1 [p1]) (append_unrepeatable l2 [p2]).
Proof.
  intros F P. unfold append_unrepeatable. pose proof (Rlast _ _ F) as L. destruct (last l1) as [a|], (last l2) as [b|]; try done.
  - pose proof (Rp_eqb _ _ _ _ L P) as E. unfold ptr_eqb in E. rewrite E. destruct (bool_decide (a = p1)).
    + by rewrite !app_nil_r.
    + apply Forall2_app; [done|]. by repeat constructor.
  - by repeat constructor.
Qed.
Lemma Rbuf_hook : Rhook buf_hook buf_hook.
Proof. intros p1 p2 s1 s2 P H. constructor; [apply H|]. cbn. apply Rau; [apply H|done]. Qed.
Lemma Rraw_hook : Rhook raw_hook raw_hook.
Proof.
  intros p1 p2 s1 s2 P H. unfold raw_hook. rewrite (Rkind _ _ _ _ (rs_heap _ _ H) P). destruct (kind_eqb _ _); [|done].
  constructor; [|apply H]. apply Rset_kind; [apply H|done].
Qed.

Definition Rpair {A B} (RA : A -> A -> Prop) (RB : B -> B -> Prop) (x y : A * B) : Prop := RA (fst x) (fst y) /\ RB (snd x) (snd y).
Lemma loop_sim {S1 S2} (R : S1 -> S2 -> Prop) it1 it2 fn1 fn2 :
  (forall s1 s2 l, R s1 s2 -> Rp (it1 s1 l) (it2 s2 (rho l))) ->
  (forall l s1 s2 s1' b, R s1 s2 -> fn1 l s1 = Ok (s1', b) -> exists s2', fn2 (rho l) s2 = Ok (s2', b) /\ R s1' s2') ->
  forall f1 f2 p1 p2 s1 s2 s1' r1, f1 <= f2 -> Rp p1 p2 -> R s1 s2 -> loop f1 it1 fn1 p1 s1 = Ok (s1', r1) ->
  exists s2' r2, loop f2 it2 fn2 p2 s2 = Ok (s2', r2) /\ R s1' s2' /\ Rp r1 r2.
Proof.
  intros Hit Hfn. induction f1 as [|f1 IH]; intros f2 p1 p2 s1 s2 s1' r1 L P H E; unfold Rp in P; subst p2; (destruct p1 as [l|]; cbn [loop fmap option_fmap option_map] in *;
    [|injection E as <- <-; destruct f2; by eexists _, _]); [done|].
  destruct f2 as [|f2]; [lia|]. cbn [loop]. destruct (fn1 l s1) as [[t1 [|]]| |] eqn:En; try done.
  - destruct (Hfn _ _ _ _ _ H En) as (t2 & -> & Ht). eapply IH; [lia| |exact Ht|exact E]. by apply Hit.
  - injection E as <- <-. destruct (Hfn _ _ _ _ _ H En) as (t2 & -> & Ht). by eexists _, _.
Qed.
Lemma sim_iterM {X} (RX : X -> X -> Prop) f1 f2 b1 b2 p1 p2 x1 x2 : f1 <= f2 ->
  (forall l x1 x2, RX x1 x2 -> sim (Rpair RX eq) (b1 l x1) (b2 (rho l) x2)) -> Rp p1 p2 -> RX x1 x2 ->
  sim (Rpair RX Rp) (iterM f1 b1 p1 x1) (iterM f2 b2 p2 x2).
Proof.
  intros L Hb P Hx s1 s2 s1' a1 H. unfold iterM.
  match goal with |- res_bind ?X _ = _ -> _ => destruct X as [[[t1 y1] r1]| |] eqn:E end; cbn [res_bind]; try done. intros [= <- <-].
  destruct (loop_sim (fun (a b : st * X) => Rs (fst a) (fst b) /\ RX (snd a) (snd b))
    (fun sx l => next_of (s_heap (fst sx)) (Some l)) (fun sx l => next_of (s_heap (fst sx)) (Some l))
    (fun l sx => res_bind (b1 l (snd sx) (fst sx)) (fun '(s, (x, b)) => Ok ((s, x), b)))
    (fun l sx => res_bind (b2 l (snd sx) (fst sx)) (fun '(s, (x, b)) => Ok ((s, x), b)))) with (f1 := f1) (f2 := f2) (p1 := p1) (p2 := p2) (s1 := (s1, x1)) (s2 := (s2, x2)) (s1' := (t1, y1)) (r1 := r1)
    as ([t2 y2] & r2 & -> & [Ht Hy] & Hr); try done.
  - intros [u1 v1] [u2 v2] l [Hu _]. apply Rnext; [apply Hu|done].
  - intros l [u1 v1] [u2 v2] [u1' v1'] b [Hu Hv] En. cbn [fst snd] in *.
    destruct (b1 l v1 u1) as [[w1 [z1 c1]]| |] eqn:Eb; try discriminate En. injection En as -> -> ->.
    destruct (Hb l v1 v2 Hv _ _ _ _ Hu Eb) as (w2 & [z2 c2] & -> & Hw & [Hz Hc]). cbn in Hz, Hc. subst c2. cbn. by eexists.
  - cbn [res_bind]. eexists _, _. split; [done|]. cbn in Ht, Hy. split; [done|]. by split.
Qed.
Lemma sim_scanM {A} p1 p2 fn a : Rp p1 p2 -> (forall h1 h2 l a, Rh h1 h2 -> fn h1 l a = fn h2 (rho l) a) ->
  sim (Rpair (eq (A := A)) Rp) (scanM p1 fn a) (scanM p2 fn a).
Proof.
  intros P Hf s1 s2 s1' a1 H. unfold scanM. match goal with |- res_bind ?X _ = _ -> _ => destruct X as [[y1 r1]| |] eqn:E end; cbn [res_bind]; try done.
  intros [= <- <-]. unfold scan_next in *. pose proof (rs_heap _ _ H) as Hh.
  destruct (loop_sim (eq (A := A)) (fun _ l => next_of (s_heap s1) (Some l)) (fun _ l => next_of (s_heap s2) (Some l))
    (fun l a => Ok (fn (s_heap s1) l a)) (fun l a => Ok (fn (s_heap s2) l a))) with (f1 := S (length (s_heap s1))) (f2 := S (length (s_heap s2))) (p1 := p1) (p2 := p2) (s1 := a) (s2 := a) (s1' := y1) (r1 := r1)
    as (y2 & r2 & -> & <- & Hr); try done.
  - intros _ _ l _. by apply Rnext.
  - intros l u1 u2 u1' b <- [= E']. rewrite (Hf _ _ l u1 Hh) in E'. eexists. split; [by rewrite E'|done].
  - pose proof (rh_len _ _ Hh). lia.
  - cbn [res_bind]. eexists _, _. split; [done|]. by split.
Qed.
Lemma sim_if {A} (RA : A -> A -> Prop) (b : bool) m1 m2 k1 k2 : sim RA m1 m2 -> sim RA k1 k2 -> sim RA (if b then m1 else k1) (if b then m2 else k2).
Proof. by destruct b. Qed.
Definition Ract (a1 a2 : act) : Prop :=
  match a1, a2 with Stop, Stop | Cont, Cont => True | Jump p1, Jump p2 => Rp p1 p2 | _, _ => False end.
Lemma sim_walk {X} (RX : X -> X -> Prop) b f1 f2 hs1 hs2 sw1 sw2 p1 p2 x1 x2 : f1 <= f2 -> Rhooks hs1 hs2 ->
  (forall l x1 x2, RX x1 x2 -> sim (Rpair Ract RX) (sw1 l x1) (sw2 (rho l) x2)) -> Rp p1 p2 -> RX x1 x2 ->
  sim Rp (walk b f1 hs1 sw1 p1 x1) (walk b f2 hs2 sw2 p2 x2).
Proof.
  intros L F Hsw P Hx. unfold walk.
  set (RW := fun (w1 w2 : wl X) => w_skip w1 = w_skip w2 /\ Rp (w_jump w1) (w_jump w2) /\ RX (w_x w1) (w_x w2)).
  eapply sim_bind with (RA := Rpair RW Rp).
  - apply sim_iterM; try done. intros l [k1 j1 y1] [k2 j2 y2] (W1 & W2 & W3). cbn in W1, W2, W3. subst k2. unfold walk_body. cbn [w_skip w_jump w_x].
    eapply sim_bind; [by apply sim_hook|]. intros _ _ _. apply sim_if; [apply sim_ret; by repeat split|].
    rewrite (Rp_eqb _ _ _ _ W2 Rp_none), (Rp_eqb _ _ _ _ (Rp_some l) W2).
    apply sim_if; [apply sim_ret; by repeat split|]. apply sim_if; [apply sim_ret; by repeat split|].
    eapply sim_bind; [by apply Hsw|]. intros [a1 z1] [a2 z2] [Ha Hz]. cbn [fst snd] in *. unfold Ract in Ha.
    destruct a1 as [| |q1], a2 as [| |q2]; try done; apply sim_ret; repeat split; try done. cbn. symmetry. by apply Rp_eqb.
  - intros [w1 r1] [w2 r2] [_ Hr]. by apply sim_ret.
Qed.
Lemma sim_finish k b1 b2 : Forall2 Rp b1 b2 -> sim eq (finish_combine k b1) (finish_combine k b2).
Proof.
  intros F s1 s2 s1' a1 H. unfold finish_combine. pose proof (Rlast _ _ F) as La. destruct F as [|p1 p2 b1 b2 P F].
  { intros [= <- <-]. by eexists _, _. }
  assert (Nx : Rp (next_of (s_heap s1) (default None (last (p1 :: b1)))) (next_of (s_heap s2) (default None (last (p2 :: b2))))).
  { apply Rnext; [apply H|]. destruct (last (p1 :: b1)), (last (p2 :: b2)); try done. }
  destruct (combine_next (s_heap s1) p1 k b1) as [[h1 n1]| |] eqn:E; cbn [res_bind]; try done. intros [= <- <-].
  destruct (Rcombine _ _ _ _ _ _ _ _ _ _ F (rs_heap _ _ H) P E) as (h2 & n2 & E2 & Hh & Hn). unfold combine_next in *. rewrite E2. cbn [res_bind].
  eexists _, _. split; [done|]. split; [|done]. constructor; [|apply H]. cbn [s_heap]. by apply Rreplace_next.
Qed.

(** The steps of a program, until a call is reached. *)
Ltac st1 :=
  match goal with
  | |- sim _ (ret _) (ret _) => apply sim_ret; repeat split; try done
  | |- sim _ out _ => apply sim_out
  | |- sim _ (bind (get_kind _) _) _ => eapply sim_bind; [apply sim_get_kind; done|intros ? ? <-]
  | |- sim _ (bind (get_next _) _) _ => eapply sim_bind; [apply sim_get_next; done|intros ? ? ?]
  | |- sim _ (bind (handle_hook _ _) _) _ => eapply sim_bind; [apply sim_hook; done|intros _ _ _]
  | |- sim _ (bind (do_set_kind _ _) _) _ => eapply sim_bind; [apply sim_set_kind; done|intros _ _ _]
  | |- sim _ (get_next _) _ => apply sim_get_next; done
  | |- sim _ (if _ then _ else _) (if _ then _ else _) => apply sim_if
  end.
Lemma sim_find_next f1 f2 p1 p2 ks o hs1 hs2 : f1 <= f2 -> Rp p1 p2 -> Rhooks hs1 hs2 -> sim Rp (find_next f1 p1 ks o hs1) (find_next f2 p2 ks o hs2).
Proof.
  intros L P F. unfold find_next. eapply sim_bind with (RA := Rpair eq Rp).
  - apply sim_iterM; try done. intros l c ? <-. repeat st1.
  - intros [? r1] [? r2] [_ Hr]. by apply sim_ret.
Qed.
Lemma sim_skip_nest f1 f2 p1 p2 kl kr hs1 hs2 : f1 <= f2 -> Rp p1 p2 -> Rhooks hs1 hs2 -> sim Rp (skip_nest f1 p1 kl kr hs1) (skip_nest f2 p2 kl kr hs2).
Proof.
  intros L P F. unfold skip_nest. st1. eapply sim_bind with (RA := Rp).
  - st1; [|by apply sim_ret]. st1. eapply sim_bind; [by apply sim_find_next|]. intros q1 q2 Q. st1.
  - intros q1 q2 Q. eapply sim_bind with (RA := Rpair eq Rp).
    + apply sim_iterM; try done. intros l c ? <-. st1. st1. repeat st1.
    + intros [? r1] [? r2] [_ Hr]. by apply sim_ret.
Qed.
Lemma sim_temporary f1 f2 p1 p2 : f1 <= f2 -> Rp p1 p2 -> sim eq (is_temporary_func f1 p1) (is_temporary_func f2 p2).
Proof.
  intros L P. unfold is_temporary_func. eapply sim_bind; [by apply sim_find_next|]. intros q1 q2 Q. repeat st1.
Qed.
Lemma sim_valid_count p1 p2 : Rp p1 p2 -> sim eq (valid_param_count p1) (valid_param_count p2).
Proof.
  intros P. unfold valid_param_count. eapply sim_bind; [apply sim_scanM; [done|]|].
  - intros h1 h2 l a H. by rewrite (Rkind _ _ _ _ H (Rp_some l)).
  - intros [a1 r1] [a2 r2] [E _]. by apply sim_ret.
Qed.
Lemma sim_line_function p1 p2 : Rp p1 p2 -> sim eq (is_line_function p1) (is_line_function p2).
Proof.
  intros P. unfold is_line_function. eapply sim_bind; [apply sim_scanM; [done|]|].
  - intros h1 h2 l a H. by rewrite (Rkind _ _ _ _ H (Rp_some l)).
  - intros [a1 r1] [a2 r2] [E _]. by apply sim_ret.
Qed.
Lemma sim_row_count p1 p2 : Rp p1 p2 -> sim eq (row_name_count p1) (row_name_count p2).
Proof.
  intros P. unfold row_name_count. eapply sim_bind; [apply sim_scanM; [done|]|].
  - intros h1 h2 l a H. by rewrite (Rkind _ _ _ _ H (Rp_some l)).
  - intros [a1 r1] [a2 r2] [E _]. cbn in E. subst. by apply sim_ret.
Qed.

Definition sim_run (f1 f2 : nat) : Prop :=
  (forall sk rc p1 p2 hs1 hs2, Rp p1 p2 -> Rhooks hs1 hs2 -> sim Rp (paren_run f1 sk rc p1 hs1) (paren_run f2 sk rc p2 hs2)) /\
  (forall rc p1 p2 hs1 hs2, Rp p1 p2 -> Rhooks hs1 hs2 -> sim Rp (paren_param f1 rc p1 hs1) (paren_param f2 rc p2 hs2)) /\
  (forall r p1 p2 hs1 hs2, Rp p1 p2 -> Rhooks hs1 hs2 -> sim Rp (func_run f1 r p1 hs1) (func_run f2 r p2 hs2)) /\
  (forall ks p1 p2 hs1 hs2, Rp p1 p2 -> Rhooks hs1 hs2 -> sim Rp (general_func f1 p1 ks hs1) (general_func f2 p2 ks hs2)) /\
  (forall p1 p2 hs1 hs2, Rp p1 p2 -> Rhooks hs1 hs2 -> sim Rp (parameter_func f1 p1 hs1) (parameter_func f2 p2 hs2)) /\
  (forall p1 p2 hs1 hs2, Rp p1 p2 -> Rhooks hs1 hs2 -> sim Rp (single_return f1 p1 hs1) (single_return f2 p2 hs2)).
Lemma sim_all f1 : forall f2, f1 <= f2 -> sim_run f1 f2.
Proof.
  induction f1 as [|f1 IH]; intros f2 L; [repeat split; intros; apply sim_out|].
  destruct f2 as [|f2]; [lia|]. assert (L' : f1 <= f2) by lia. destruct (IH f2 L') as (I1 & I2 & I3 & I4 & I5 & I6). clear IH L.
  repeat split; intros.
  - cbn [paren_run]. st1; [by apply sim_skip_nest|]. st1. st1; [repeat st1|]. apply sim_walk with (RX := eq); try done. intros l ? ? <-.
    repeat st1. eapply sim_bind; [by apply I2|]. intros ? ? ?. by st1.
  - cbn [paren_param]. eapply sim_bind; [by apply sim_valid_count|]. intros c ? <-. apply sim_walk with (RX := eq); try done. intros l ? ? <-.
    repeat st1; eapply sim_bind; try (by apply sim_skip_nest); try (by apply I3); intros ? ? ?; by st1.
  - cbn [func_run]. st1; [by apply I5|]. st1; [by apply I4|]. eapply sim_bind; [by apply sim_temporary|]. intros b ? <-. st1; [by apply I4|].
    assert (Hm : forall h1 h2 : ptr, Rp h1 h2 -> sim Rp
      (walk false f1 hs1 (fun l (fm : bool * bool) =>
          k <- get_kind (Some l) ;
          let '(go_on, fm) :=
            if fst fm then (true, fm)
            else if kind_eqb k KRaw then (true, (true, snd fm))
            else if kind_eqb k KParenL then (true, (true, true))
            else (false, fm) in
          if negb go_on then ret (Cont, fm)
          else if snd fm
          then p <- paren_run f1 false true (Some l) hs1 ; ret (Jump p, (fst fm, false))
          else if kind_eqb k KNewLine then ret (Stop, fm)
          else p <- general_func f1 h1 [KNewLine] hs1 ; ret (Jump p, fm)) h1 (ff_notmethod r, false))
      (walk false f2 hs2 (fun l (fm : bool * bool) =>
          k <- get_kind (Some l) ;
          let '(go_on, fm) :=
            if fst fm then (true, fm)
            else if kind_eqb k KRaw then (true, (true, snd fm))
            else if kind_eqb k KParenL then (true, (true, true))
            else (false, fm) in
          if negb go_on then ret (Cont, fm)
          else if snd fm
          then p <- paren_run f2 false true (Some l) hs2 ; ret (Jump p, (fst fm, false))
          else if kind_eqb k KNewLine then ret (Stop, fm)
          else p <- general_func f2 h2 [KNewLine] hs2 ; ret (Jump p, fm)) h2 (ff_notmethod r, false))).
    { intros h1 h2 Hh. apply sim_walk with (RX := eq); try done. intros l fm ? <-. st1.
      destruct (if fst fm then _ else _) as [go fm']. st1; [by st1|]. st1; [eapply sim_bind; [by apply I1|]; intros ? ? ?; by st1|].
      st1; [by st1|]. eapply sim_bind; [by apply I4|]; intros ? ? ?; by st1. }
    st1; [|by apply Hm]. st1. st1. st1. st1; [by st1|]. by apply Hm.
  - cbn [general_func]. st1. eapply sim_bind with (RA := Rp); [repeat st1|]. intros q1 q2 Q. apply sim_walk with (RX := eq); try done. intros l [nm pr] ? <-.
    st1. st1; [by destruct pr; st1|]. repeat st1; eapply sim_bind; try (by apply sim_skip_nest); try (by apply I6); try (by apply I1); intros ? ? ?; by st1.
  - cbn [parameter_func]. eapply sim_bind; [by apply I4|]. intros ? ? ?. repeat st1.
  - cbn [single_return]. st1. st1; [repeat st1|]. st1. eapply sim_bind; [by apply sim_find_next|]. intros ? ? ?. st1. st1; [by apply I1|]. st1; [by apply I5|].
    eapply sim_bind with (RA := Rpair (Forall2 Rp) Rp).
    + apply sim_iterM; try done. intros l b1 b2 B. st1. st1. repeat st1. by apply Rau.
    + intros [b1 r1] [b2 r2] [B R]. cbn [fst snd]. eapply sim_bind; [by apply sim_finish|]. intros _ _ _. by apply sim_ret.
Qed.
Lemma sim_param_run f1 f2 sk rk ks p1 p2 hs1 hs2 : f1 <= f2 -> Rp p1 p2 -> Rhooks hs1 hs2 ->
  sim Rp (param_run f1 sk rk ks p1 hs1) (param_run f2 sk rk ks p2 hs2).
Proof.
  intros L P F. destruct (sim_all f1 f2 L) as (I1 & I2 & I3 & I4 & I5 & I6). unfold param_run. destruct ks as [|k0 ks]; [repeat st1|].
  assert (F' : Rhooks (hs1 ++ [buf_hook]) (hs2 ++ [buf_hook])) by (apply Forall2_app; [done|]; constructor; [apply Rbuf_hook|constructor]).
  eapply sim_bind with (RA := eq).
  { intros s1 s2 s1' a1 H [= <- <-]. eexists _, _. split; [done|]. split; [|done]. constructor; [apply H|constructor]. }
  intros _ _ _. eapply sim_bind with (RA := Rp).
  - apply sim_walk with (RX := eq); try done. intros l ? ? <-. repeat st1; eapply sim_bind with (RA := Rp) || idtac;
      try (by apply sim_skip_nest); try (by apply I1); try (by apply I3); try (intros ? ? ?; by st1).
    eapply sim_bind with (RA := eq); [|intros _ _ _; by st1].
    intros s1 s2 s1' u1 H [= <- <-]. eexists _, _. split; [done|]. split; [|done]. by apply Rbuf_hook.
  - intros r1 r2 R. eapply sim_bind with (RA := eq); [|intros _ _ _; by st1].
    intros s1 s2 s1' a1 H E. by apply (sim_finish rk _ _ (rs_buf _ _ H) s1 s2 s1' a1 H E).
Qed.
Lemma sim_interface f1 f2 p1 p2 hs1 hs2 : f1 <= f2 -> Rp p1 p2 -> Rhooks hs1 hs2 -> sim Rp (interface_run f1 p1 hs1) (interface_run f2 p2 hs2).
Proof.
  intros L P F. destruct (sim_all f1 f2 L) as (I1 & I2 & I3 & I4 & I5 & I6). unfold interface_run.
  eapply sim_bind; [by apply sim_find_next|]. intros q1 q2 Q. apply sim_walk with (RX := eq); try done. intros l ? ? <-.
  st1. st1; [by st1|]. st1; [by st1|]. eapply sim_bind; [by apply sim_line_function|]. intros b ? <-.
  st1; [eapply sim_bind; [by apply I3|]; intros ? ? ?; by st1|].
  eapply sim_bind with (RA := eq); [st1; [by apply sim_set_kind|by apply sim_ret]|]. intros _ _ _.
  eapply sim_bind; [by apply sim_find_next|]. intros ? ? ?. by st1.
Qed.
Lemma sim_struct_row f1 f2 p1 p2 hs1 hs2 : f1 <= f2 -> Rp p1 p2 -> Rhooks hs1 hs2 -> sim Rp (struct_row f1 p1 hs1) (struct_row f2 p2 hs2).
Proof.
  intros L P F. destruct (sim_all f1 f2 L) as (I1 & I2 & I3 & I4 & I5 & I6). unfold struct_row.
  eapply sim_bind; [by apply sim_row_count|]. intros c ? <-. apply sim_walk with (RX := eq); try done. intros l ? ? <-.
  repeat st1. eapply sim_bind; [apply I3; [done|constructor; [apply Rraw_hook|constructor]]|]. intros ? ? ?; by st1.
Qed.
Lemma sim_struct f1 f2 p1 p2 hs1 hs2 : f1 <= f2 -> Rp p1 p2 -> Rhooks hs1 hs2 -> sim Rp (struct_run f1 p1 hs1) (struct_run f2 p2 hs2).
Proof.
  intros L P F. unfold struct_run. eapply sim_bind; [by apply sim_find_next|]. intros q1 q2 Q. st1.
  apply sim_walk with (RX := eq); try done. intros l ? ? <-. repeat st1. eapply sim_bind; [by apply sim_struct_row|]. intros ? ? ?; by st1.
Qed.
Lemma sim_type f1 f2 p1 p2 hs1 hs2 : f1 <= f2 -> Rp p1 p2 -> Rhooks hs1 hs2 -> sim Rp (type_run f1 p1 hs1) (type_run f2 p2 hs2).
Proof.
  intros L P F. destruct (sim_all f1 f2 L) as (I1 & I2 & I3 & I4 & I5 & I6). unfold type_run. st1. st1; [repeat st1|].
  apply sim_walk with (RX := eq); try done. intros l [nm spc] ? <-. repeat st1; eapply sim_bind;
    try (by apply sim_skip_nest); try (by apply sim_interface); try (by apply sim_struct); try (by apply I3); try (by apply sim_param_run); intros ? ? ?; by st1.
Qed.
Lemma sim_reset f1 f2 p1 p2 : f1 <= f2 -> Rp p1 p2 -> sim Rp (reset_kind f1 p1) (reset_kind f2 p2).
Proof.
  intros L P. destruct (sim_all f1 f2 L) as (I1 & I2 & I3 & I4 & I5 & I6). unfold reset_kind. st1. st1; [by apply I3|]. st1; [by apply sim_type|]. by st1.
Qed.
End sim.
