(** Calls on some nodes neither read nor write any others: a simulation between two
    heaps that agree on those nodes up to renaming. *)
From Verif Require Import SpecConc NodeHist P_Lex P_Scope LocalProofs ExtractCount ResetSpec.

Notation rel := (loc -> loc -> Prop) (only parsing).
Definition Ep (e : rel) (p1 p2 : ptr) : Prop :=
  match p1, p2 with None, None => True | Some a, Some b => e a b | _, _ => False end.
Record En (e : rel) (n1 n2 : node) : Prop :=
  { en_line : n_line n2 = n_line n1; en_kind : n_kind n2 = n_kind n1; en_text : n_text n2 = n_text n1;
    en_prev : Ep e (n_prev n1) (n_prev n2); en_next : Ep e (n_next n1) (n_next n2) }.
(** The nodes of [h1] in the domain of [e] are in [h2] under the names [e] gives
    them; the nodes of [h0] that have no such name are unchanged in [h2]. *)
Record Eh (e : rel) (h0 h1 h2 : heap) : Prop :=
  { eh_fun : forall a b c, e a b -> e a c -> b = c;
    eh_inj : forall a b c, e a c -> e b c -> a = b;
    eh_at : forall a b, e a b -> exists n1 n2, h1 !! a = Some n1 /\ h2 !! b = Some n2 /\ En e n1 n2;
    eh_frame : forall x n, h0 !! x = Some n -> (forall a, ~ e a x) -> h2 !! x = Some n;
    eh_len : length h0 <= length h2 }.
(** More nodes, all new. *)
Definition wider (h2 : heap) (e e' : rel) : Prop :=
  (forall a b, e a b -> e' a b) /\ (forall a b, e' a b -> e a b \/ length h2 <= b).

Lemma wider_refl h e : wider h e e.
Proof. split; [done|]. by left. Qed.
Lemma wider_trans h h' e e' e'' : wider h e e' -> wider h' e' e'' -> length h <= length h' -> wider h e e''.
Proof.
  intros [A1 A2] [B1 B2] L. split; [auto|]. intros a b H. destruct (B2 _ _ H) as [H'|H']; [|right; lia]. by apply A2.
Qed.
Lemma Ep_mono (e e' : rel) p1 p2 : (forall a b, e a b -> e' a b) -> Ep e p1 p2 -> Ep e' p1 p2.
Proof. intros H. destruct p1, p2; cbn; auto. Qed.
Lemma En_mono (e e' : rel) n1 n2 : (forall a b, e a b -> e' a b) -> En e n1 n2 -> En e' n1 n2.
Proof. intros H []. constructor; try done; by eapply Ep_mono. Qed.

Section link.
Context (e : rel) (h0 : heap).
Notation Rp := (Ep e). Notation Rh := (Eh e h0).

Lemma Ep_eqb h1 h2 p1 p2 q1 q2 : Rh h1 h2 -> Rp p1 p2 -> Rp q1 q2 -> ptr_eqb p2 q2 = ptr_eqb p1 q1.
Proof.
  intros H P Q. unfold ptr_eqb. apply bool_decide_ext. destruct p1, p2, q1, q2; cbn in P, Q; try done.
  split; intros [= ->]; f_equal; [by eapply eh_inj|by eapply eh_fun].
Qed.
Lemma Ef {A} (d : A) (RA : A -> A -> Prop) f h1 h2 p1 p2 : RA d d -> (forall n1 n2, En e n1 n2 -> RA (f n1) (f n2)) ->
  Rh h1 h2 -> Rp p1 p2 -> RA (field d f h1 p1) (field d f h2 p2).
Proof.
  intros Hd Hf H P. destruct p1, p2; try done. cbn. destruct (eh_at _ _ _ _ H _ _ P) as (n1 & n2 & -> & -> & N). by apply Hf.
Qed.
Lemma Eline h1 h2 p1 p2 : Rh h1 h2 -> Rp p1 p2 -> line_of h2 p2 = line_of h1 p1.
Proof. intros. symmetry. eapply (Ef _ eq); [done| |done|done]. intros n1 n2 N. symmetry. apply N. Qed.
Lemma Ekind h1 h2 p1 p2 : Rh h1 h2 -> Rp p1 p2 -> kind_of h2 p2 = kind_of h1 p1.
Proof. intros. symmetry. eapply (Ef _ eq); [done| |done|done]. intros n1 n2 N. symmetry. apply N. Qed.
Lemma Etext h1 h2 p1 p2 : Rh h1 h2 -> Rp p1 p2 -> text_of h2 p2 = text_of h1 p1.
Proof. intros. symmetry. eapply (Ef _ eq); [done| |done|done]. intros n1 n2 N. symmetry. apply N. Qed.
Lemma Enext h1 h2 p1 p2 : Rh h1 h2 -> Rp p1 p2 -> Rp (next_of h1 p1) (next_of h2 p2).
Proof. apply (Ef None Rp); [done|]. intros n1 n2 H. apply H. Qed.
Lemma Eprev h1 h2 p1 p2 : Rh h1 h2 -> Rp p1 p2 -> Rp (prev_of h1 p1) (prev_of h2 p2).
Proof. apply (Ef None Rp); [done|]. intros n1 n2 H. apply H. Qed.

Lemma Ealter f1 f2 a b h1 h2 : e a b -> (forall n1 n2, En e n1 n2 -> En e (f1 n1) (f2 n2)) -> Rh h1 h2 -> Rh (alter f1 a h1) (alter f2 b h2).
Proof.
  intros Hab Hf [F I A Fr L]. constructor; [done|done| | |by rewrite alter_length].
  - intros a' b' H'. destruct (A _ _ H') as (n1 & n2 & E1 & E2 & N). destruct (decide (a' = a)) as [->|Ne].
    + rewrite (F _ _ _ H' Hab) in *. rewrite !list_lookup_alter, E1, E2. cbn. eexists _, _. split; [done|]. split; [done|]. by apply Hf.
    + rewrite !list_lookup_alter_ne; [by eauto| |done]. intros ->. by apply Ne, (I _ _ _ H').
  - intros x n E N. rewrite list_lookup_alter_ne; [by apply Fr|]. intros ->. by eapply N.
Qed.
Lemma Eset_kind h1 h2 p1 p2 k : Rh h1 h2 -> Rp p1 p2 -> Rh (set_kind h1 p1 k) (set_kind h2 p2 k).
Proof. intros H P. destruct p1, p2; try done. cbn. apply Ealter; [done| |done]. intros n1 n2 []. by constructor. Qed.
Lemma Eset_text h1 h2 p1 p2 k : Rh h1 h2 -> Rp p1 p2 -> Rh (set_text h1 p1 k) (set_text h2 p2 k).
Proof. intros H P. destruct p1, p2; try done. cbn. apply Ealter; [done| |done]. intros n1 n2 []. by constructor. Qed.
Lemma Ewith_prev p1 p2 a b h1 h2 : e a b -> Rp p1 p2 -> Rh h1 h2 -> Rh (alter (with_prev p1) a h1) (alter (with_prev p2) b h2).
Proof. intros Hab P. apply Ealter; [done|]. intros n1 n2 []. by constructor. Qed.
Lemma Ewith_next p1 p2 a b h1 h2 : e a b -> Rp p1 p2 -> Rh h1 h2 -> Rh (alter (with_next p1) a h1) (alter (with_next p2) b h2).
Proof. intros Hab P. apply Ealter; [done|]. intros n1 n2 []. by constructor. Qed.
Lemma Eset_prev h1 h2 n1 n2 p1 p2 : Rh h1 h2 -> Rp n1 n2 -> Rp p1 p2 -> Rh (set_prev h1 n1 p1) (set_prev h2 n2 p2).
Proof.
  intros H Hn Hp. pose proof (Ep_eqb _ _ _ _ _ _ H Hn Hp) as E. pose proof (Eprev _ _ _ _ H Hn) as Q.
  destruct n1 as [a|], n2 as [b|]; try done. unfold set_prev. rewrite E. destruct (ptr_eqb (Some a) p1); [done|].
  apply Ewith_prev; [done|done|]. destruct (prev_of h1 (Some a)), (prev_of h2 (Some b)); try done. by apply Ewith_next.
Qed.
Lemma Eset_next h1 h2 n1 n2 p1 p2 : Rh h1 h2 -> Rp n1 n2 -> Rp p1 p2 -> Rh (set_next h1 n1 p1) (set_next h2 n2 p2).
Proof.
  intros H Hn Hp. pose proof (Ep_eqb _ _ _ _ _ _ H Hn Hp) as E. pose proof (Enext _ _ _ _ H Hn) as Q.
  destruct n1 as [a|], n2 as [b|]; try done. unfold set_next. rewrite E. destruct (ptr_eqb (Some a) p1); [done|].
  apply Ewith_next; [done|done|]. destruct (next_of h1 (Some a)), (next_of h2 (Some b)); try done. by apply Ewith_prev.
Qed.
Lemma Ep_none : Rp None None. Proof. done. Qed.
Hint Resolve Ep_none Eset_prev Eset_next Enext Eprev : esim.
Ltac es := repeat first [assumption | apply Ep_none | apply Eset_next | apply Eset_prev | (eapply Enext; [eassumption|]) | (eapply Eprev; [eassumption|])].
Definition E2 (r1 r2 : heap * (ptr * ptr)) : Prop := Rh (fst r1) (fst r2) /\ Rp (fst (snd r1)) (fst (snd r2)) /\ Rp (snd (snd r1)) (snd (snd r2)).
Definition E1 (r1 r2 : heap * ptr) : Prop := Rh (fst r1) (fst r2) /\ Rp (snd r1) (snd r2).
Lemma Einsert_prev h1 h2 n1 n2 p1 p2 : Rh h1 h2 -> Rp n1 n2 -> Rp p1 p2 -> E2 (insert_prev h1 n1 p1) (insert_prev h2 n2 p2).
Proof.
  intros H Hn Hp. unfold insert_prev. rewrite (Ep_eqb _ _ _ _ _ _ H Hn Hp), (Ep_eqb _ _ _ _ _ _ H (Eprev _ _ _ _ H Hn) Hp).
  destruct (_ || _); [done|]. split; [|split]; cbn [fst snd]; es.
Qed.
Lemma Einsert_next h1 h2 n1 n2 p1 p2 : Rh h1 h2 -> Rp n1 n2 -> Rp p1 p2 -> E2 (insert_next h1 n1 p1) (insert_next h2 n2 p2).
Proof.
  intros H Hn Hp. unfold insert_next. rewrite (Ep_eqb _ _ _ _ _ _ H Hn Hp), (Ep_eqb _ _ _ _ _ _ H (Enext _ _ _ _ H Hn) Hp).
  destruct (_ || _); [done|]. split; [|split]; cbn [fst snd]; es.
Qed.
Lemma Ereplace_prev h1 h2 n1 n2 p1 p2 : Rh h1 h2 -> Rp n1 n2 -> Rp p1 p2 -> E2 (replace_prev h1 n1 p1) (replace_prev h2 n2 p2).
Proof.
  intros H Hn Hp. unfold replace_prev. rewrite (Ep_eqb _ _ _ _ _ _ H Hn Hp), (Ep_eqb _ _ _ _ _ _ H (Eprev _ _ _ _ H Hn) Hp).
  destruct (_ || _); [done|]. split; [|split]; cbn [fst snd]; es.
Qed.
Lemma Ereplace_next h1 h2 n1 n2 p1 p2 : Rh h1 h2 -> Rp n1 n2 -> Rp p1 p2 -> E2 (replace_next h1 n1 p1) (replace_next h2 n2 p2).
Proof.
  intros H Hn Hp. unfold replace_next. rewrite (Ep_eqb _ _ _ _ _ _ H Hn Hp), (Ep_eqb _ _ _ _ _ _ H (Enext _ _ _ _ H Hn) Hp).
  destruct (_ || _); [done|]. split; [|split]; cbn [fst snd]; es.
Qed.
Lemma Etake_prev h1 h2 n1 n2 : Rh h1 h2 -> Rp n1 n2 -> E1 (take_prev h1 n1) (take_prev h2 n2).
Proof. intros H Hn. unfold take_prev. split; cbn [fst snd]; es. Qed.
Lemma Etake_next h1 h2 n1 n2 : Rh h1 h2 -> Rp n1 n2 -> E1 (take_next h1 n1) (take_next h2 n2).
Proof. intros H Hn. unfold take_next. split; cbn [fst snd]; es. Qed.
Lemma Eremove_prev h1 h2 n1 n2 : Rh h1 h2 -> Rp n1 n2 -> E1 (remove_prev h1 n1) (remove_prev h2 n2).
Proof. intros H Hn. unfold remove_prev. split; cbn [fst snd]; es. Qed.
Lemma Eremove_next h1 h2 n1 n2 : Rh h1 h2 -> Rp n1 n2 -> E1 (remove_next h1 n1) (remove_next h2 n2).
Proof. intros H Hn. unfold remove_next. split; cbn [fst snd]; es. Qed.
Lemma Eisolate h1 h2 n1 n2 : Rh h1 h2 -> Rp n1 n2 -> Rh (isolate h1 n1) (isolate h2 n2).
Proof.
  intros H Hn. unfold isolate.
  assert (A : Rh (set_next h1 (prev_of h1 n1) None) (set_next h2 (prev_of h2 n2) None)) by es. es.
Qed.
Lemma Ecombine_loop l1 l2 : Forall2 Rp l1 l2 -> forall h1 h2 n1 n2 buf, Rh h1 h2 -> Rp n1 n2 ->
  Rh (fst (combine_loop h1 n1 l1 buf)) (fst (combine_loop h2 n2 l2 buf)) /\ snd (combine_loop h1 n1 l1 buf) = snd (combine_loop h2 n2 l2 buf).
Proof.
  induction 1 as [|p1 p2 l1 l2 P _ IH]; intros h1 h2 n1 n2 buf H Hn; [done|]. cbn [combine_loop].
  rewrite (Ep_eqb _ _ _ _ _ _ H P Ep_none), (Ep_eqb _ _ _ _ _ _ H Hn P). destruct (_ || _); [by apply IH|].
  rewrite <- (Etext _ _ _ _ H P). apply IH; [by apply Eisolate|done].
Qed.
Lemma Ecombine b k l1 l2 h1 h2 n1 n2 h1' n1' : Forall2 Rp l1 l2 -> Rh h1 h2 -> Rp n1 n2 -> Node.combine b h1 n1 k l1 = Ok (h1', n1') ->
  exists h2' n2', Node.combine b h2 n2 k l2 = Ok (h2', n2') /\ Rh h1' h2' /\ Rp n1' n2'.
Proof.
  intros F H Hn. pose proof (Eset_kind _ _ _ _ k H Hn) as Hk. unfold Node.combine. destruct F as [|a1 a2 l1 l2 A F].
  { intros [= <- <-]. by eexists _, _. }
  assert (Q : exists m1 m2 r1 r2, Rp m1 m2 /\ Forall2 Rp r1 r2 /\
    match n1 with None => a1 | Some _ => n1 end = m1 /\ match n1 with None => l1 | Some _ => a1 :: l1 end = r1 /\
    match n2 with None => a2 | Some _ => n2 end = m2 /\ match n2 with None => l2 | Some _ => a2 :: l2 end = r2).
  { destruct n1, n2; try done; repeat eexists; try done. by constructor. }
  destruct Q as (m1 & m2 & r1 & r2 & Hm & Hr & -> & -> & -> & ->).
  rewrite (Etext _ _ _ _ Hk Hm). pose proof (Ecombine_loop _ _ Hr _ _ _ _ [text_of (set_kind h1 n1 k) m1] Hk Hm) as [G1 G2].
  destruct (combine_loop (set_kind h1 n1 k) m1 r1 _) as [h1c b1], (combine_loop (set_kind h2 n2 k) m2 r2 _) as [h2c b2]. cbn [fst snd] in *. subst b2.
  destruct m1 as [m|], m2 as [m'|]; try done. cbn. intros [= <- <-]. eexists _, _. split; [done|]. split; [|done].
  apply (Eset_text _ _ (Some m) (Some m')); done.
Qed.
End link.

(** ** New nodes *)
Definition plus1 (e : rel) (a b : loc) : rel := fun x y => e x y \/ (x = a /\ y = b).
Lemma Ealloc e h0 h1 h2 n1 n2 : Eh e h0 h1 h2 -> En e n1 n2 ->
  Eh (plus1 e (length h1) (length h2)) h0 (h1 ++ [n1]) (h2 ++ [n2]) /\ wider h2 e (plus1 e (length h1) (length h2)).
Proof.
  intros [F I A Fr L] N.
  assert (V : forall a b, e a b -> a < length h1 /\ b < length h2).
  { intros a b H. destruct (A _ _ H) as (m1 & m2 & E1 & E2 & _). split; by eapply lookup_lt_Some. }
  assert (Up : forall x y, e x y -> plus1 e (length h1) (length h2) x y) by (intros x y H; by left).
  split; [|split; [done|intros a b [H|[-> ->]]; [by left|right; lia]]].
  constructor.
  - intros a b c [H1|[-> ->]] [H2|[? ->]].
    + by eapply F.
    + apply V in H1. lia.
    + apply V in H2. lia.
    + done.
  - intros a b c [H1|[-> ->]] [H2|[-> H2]].
    + by eapply I.
    + apply V in H1. lia.
    + apply V in H2. lia.
    + done.
  - intros a b [H|[-> ->]].
    + pose proof (V _ _ H). destruct (A _ _ H) as (m1 & m2 & E1 & E2 & M). rewrite !lookup_app_l by lia. eexists _, _. split; [done|]. split; [done|]. by eapply En_mono.
    + rewrite !list_lookup_middle by done. eexists _, _. split; [done|]. split; [done|]. by eapply En_mono.
  - intros x n E Nx. rewrite lookup_app_l; [apply Fr; [done|]|apply lookup_lt_Some in E; lia]. intros a Ha. by eapply Nx, Up.
  - rewrite app_length. lia.
Qed.
Lemma Enew e h0 h1 h2 line t ks : Eh e h0 h1 h2 ->
  exists e', wider h2 e e' /\ Eh e' h0 (fst (new_node h1 line t ks)) (fst (new_node h2 line t ks)) /\
    e' (snd (new_node h1 line t ks)) (snd (new_node h2 line t ks)) /\ length (fst (new_node h2 line t ks)) = S (length h2) /\ length (fst (new_node h1 line t ks)) = S (length h1).
Proof.
  intros H. assert (X : forall k, En e (mkNode line k t None None) (mkNode line k t None None)) by (by constructor).
  unfold new_node, alloc. destruct ks as [|k ks]; cbn [fst snd]; exists (plus1 e (length h1) (length h2)).
  1: destruct (Ealloc _ _ _ _ _ _ H (X (kind_new t))) as [A B]. 2: destruct (Ealloc _ _ _ _ _ _ H (X k)) as [A B].
  all: split; [exact B|]; split; [exact A|]; split; [by right|rewrite !app_length; cbn; lia].
Qed.
Lemma insert_next_length h n p : length (fst (insert_next h n p)) = length h.
Proof. unfold insert_next. destruct (_ || _); [done|]. cbn [fst]. by rewrite !set_prev_length, !set_next_length, !set_prev_length, !set_next_length, !set_prev_length, !set_next_length. Qed.
Lemma Enew_loop ts : forall e h0 h1 h2 c1 c2 line, Eh e h0 h1 h2 -> Ep e c1 c2 ->
  exists e', wider h2 e e' /\ Eh e' h0 (new_nodes_loop h1 c1 line ts) (new_nodes_loop h2 c2 line ts) /\
    length (new_nodes_loop h1 c1 line ts) + length h2 = length h1 + length (new_nodes_loop h2 c2 line ts).
Proof.
  induction ts as [|t ts IH]; intros e h0 h1 h2 c1 c2 line H P; [exists e; split; [apply wider_refl|split; [done|cbn; lia]]|].
  cbn [new_nodes_loop]. destruct (Enew e h0 h1 h2 line t [] H) as (e1 & W1 & H1 & N1 & L1 & L1').
  destruct (new_node h1 line t []) as [g1 l1], (new_node h2 line t []) as [g2 l2]. cbn [fst snd] in *.
  assert (P1 : Ep e1 c1 c2) by (eapply Ep_mono; [apply W1|done]).
  destruct (Einsert_next e1 h0 g1 g2 c1 c2 (Some l1) (Some l2) H1 P1 N1) as (H2 & _).
  pose proof (insert_next_length g2 c2 (Some l2)) as L2. pose proof (insert_next_length g1 c1 (Some l1)) as L2'.
  destruct (insert_next g1 c1 (Some l1)) as [k1 ?], (insert_next g2 c2 (Some l2)) as [k2 ?]. cbn [fst] in *.
  destruct (IH e1 h0 k1 k2 (next_of k1 c1) (next_of k2 c2) (line + count_nl t)%Z H2) as (e2 & W2 & H3 & L3); [by eapply Enext|].
  exists e2. split; [eapply wider_trans; [exact W1|exact W2|lia]|]. split; [done|lia].
Qed.
Lemma Enews e h0 h1 h2 line ts : Eh e h0 h1 h2 ->
  exists e', wider h2 e e' /\ Eh e' h0 (fst (new_nodes h1 line ts)) (fst (new_nodes h2 line ts)) /\ Ep e' (snd (new_nodes h1 line ts)) (snd (new_nodes h2 line ts)) /\
    length (fst (new_nodes h1 line ts)) + length h2 = length h1 + length (fst (new_nodes h2 line ts)).
Proof.
  intros H. destruct ts as [|t ts]; [exists e; split; [apply wider_refl|split; [done|split; [done|cbn; lia]]]|]. cbn [new_nodes].
  destruct (Enew e h0 h1 h2 line t [] H) as (e1 & W1 & H1 & N1 & L1 & L1').
  destruct (new_node h1 line t []) as [g1 l1], (new_node h2 line t []) as [g2 l2]. cbn [fst snd] in *.
  destruct (Enew_loop ts e1 h0 g1 g2 (Some l1) (Some l2) line H1 N1) as (e2 & W2 & H2 & L2).
  exists e2. split; [eapply wider_trans; [exact W1|exact W2|lia]|]. split; [done|]. split; [cbn; by apply W2|]. cbn [fst]. lia.
Qed.

(** ** Copy *)
Lemma Edeep f : forall f' e h0 h1 h2 n1 n2 p1 p2 q1 q2 h1' r1, f <= f' -> Eh e h0 h1 h2 -> Ep e n1 n2 -> Ep e p1 p2 -> Ep e q1 q2 ->
  deep_copy f h1 n1 p1 q1 = Ok (h1', r1) ->
  exists e' h2' r2, deep_copy f' h2 n2 p2 q2 = Ok (h2', r2) /\ wider h2 e e' /\ Eh e' h0 h1' h2' /\ Ep e' r1 r2 /\ length h2 <= length h2' /\ length h1' + length h2 = length h1 + length h2'.
Proof.
  induction f as [|f IH]; intros f' e h0 h1 h2 n1 n2 p1 p2 q1 q2 h1' r1 Lf H N P Q E.
  { destruct n1, n2; try done. injection E as <- <-. exists e, h2, None. split; [by destruct f'|]. split; [apply wider_refl|]. split; [done|]. split; [done|]. split; lia. }
  destruct n1 as [a|], n2 as [b|]; try done.
  2: { injection E as <- <-. exists e, h2, None. split; [by destruct f'|]. split; [apply wider_refl|]. split; [done|]. split; [done|]. split; lia. }
  destruct f' as [|f']; [lia|]. cbn [deep_copy alloc] in *.
  rewrite (Eline e h0 h1 h2 (Some a) (Some b) H N), (Ekind e h0 h1 h2 (Some a) (Some b) H N), (Etext e h0 h1 h2 (Some a) (Some b) H N).
  set (nd := mkNode _ _ _ None None) in *.
  assert (Nd : En e nd nd) by (by constructor). destruct (Ealloc _ _ _ _ _ _ H Nd) as [H1 W1]. clear Nd.
  set (e1 := plus1 e (length h1) (length h2)) in *. assert (Nn : e1 (length h1) (length h2)) by (by right).
  assert (N1 : Ep e1 (Some a) (Some b)) by (by left).
  assert (L1 : length (h2 ++ [nd]) = S (length h2)) by (rewrite app_length; cbn; lia).
  (* previous *)
  assert (S1 : forall g1 pr1, match p1 with None => deep_copy f (h1 ++ [nd]) (prev_of (h1 ++ [nd]) (Some a)) None (Some (length h1)) | Some _ => Ok (h1 ++ [nd], p1) end = Ok (g1, pr1) ->
    exists e2 g2 pr2, match p2 with None => deep_copy f' (h2 ++ [nd]) (prev_of (h2 ++ [nd]) (Some b)) None (Some (length h2)) | Some _ => Ok (h2 ++ [nd], p2) end = Ok (g2, pr2) /\
      wider (h2 ++ [nd]) e1 e2 /\ Eh e2 h0 g1 g2 /\ Ep e2 pr1 pr2 /\ length (h2 ++ [nd]) <= length g2 /\ length g1 + length (h2 ++ [nd]) = length (h1 ++ [nd]) + length g2).
  { intros g1 pr1. destruct p1 as [p|], p2 as [p'|]; try done.
    - intros [= <- <-]. exists e1, (h2 ++ [nd]), (Some p'). split; [done|]. split; [apply wider_refl|]. split; [done|]. split; [by apply W1|lia].
    - apply IH; [lia|done|by apply (Eprev e1 h0)|done|done]. }
  destruct (match p1 with None => _ | Some _ => _ end) as [[g1 pr1]| |] eqn:Ep1; try done. cbn [res_bind] in E.
  destruct (S1 _ _ eq_refl) as (e2 & g2 & pr2 & E2 & W2 & H2 & P2 & L2 & M2). rewrite E2. cbn [res_bind]. clear S1 E2 Ep1.
  assert (S2 : forall k1 nx1, match q1 with None => deep_copy f g1 (next_of g1 (Some a)) (Some (length h1)) None | Some _ => Ok (g1, q1) end = Ok (k1, nx1) ->
    exists e3 k2 nx2, match q2 with None => deep_copy f' g2 (next_of g2 (Some b)) (Some (length h2)) None | Some _ => Ok (g2, q2) end = Ok (k2, nx2) /\
      wider g2 e2 e3 /\ Eh e3 h0 k1 k2 /\ Ep e3 nx1 nx2 /\ length g2 <= length k2 /\ length k1 + length g2 = length g1 + length k2).
  { intros k1 nx1. assert (N2 : Ep e2 (Some a) (Some b)) by (by apply W2). destruct q1 as [p|], q2 as [p'|]; try done.
    - intros [= <- <-]. exists e2, g2, (Some p'). split; [done|]. split; [apply wider_refl|]. split; [done|]. split; [by apply W2, W1|lia].
    - apply IH; [lia|done|by apply (Enext e2 h0)|by apply W2|done]. }
  destruct (match q1 with None => _ | Some _ => _ end) as [[k1 nx1]| |] eqn:Ep1; try done. cbn [res_bind] in E.
  destruct (S2 _ _ eq_refl) as (e3 & k2 & nx2 & E3 & W3 & H3 & P3 & L3 & M3). rewrite E3. cbn [res_bind]. clear S2 E3 Ep1.
  injection E as <- <-. exists e3. eexists _, _. split; [done|]. assert (N3 : e3 (length h1) (length h2)) by (by apply W3, W2).
  split. { eapply (wider_trans h2 (h2 ++ [nd]) e e1 e3); [exact W1| |lia]. eapply wider_trans; [exact W2|exact W3|lia]. }
  split. { apply Ewith_next; [done|done|]. apply Ewith_prev; [done| |done]. eapply Ep_mono; [apply W3|done]. }
  split; [done|]. rewrite !alter_length. assert (length (h1 ++ [nd]) = S (length h1)) by (rewrite app_length; cbn; lia). lia.
Qed.
Lemma Ecopy e h0 h1 h2 n1 n2 b h1' r1 : length h1 <= length h2 -> Eh e h0 h1 h2 -> Ep e n1 n2 -> copy h1 n1 b = Ok (h1', r1) ->
  exists e' h2' r2, copy h2 n2 b = Ok (h2', r2) /\ wider h2 e e' /\ Eh e' h0 h1' h2' /\ Ep e' r1 r2 /\ length h1' + length h2 = length h1 + length h2'.
Proof.
  intros L H N E. destruct n1 as [a|], n2 as [c|]; try done.
  2: { injection E as <- <-. exists e, h2, None. split; [done|]. split; [apply wider_refl|]. split; [done|]. split; [done|]. lia. }
  unfold copy in *. destruct b.
  - destruct (Edeep _ (S (length h2)) _ _ _ _ _ (Some c) None None None None _ _ (le_n_S _ _ L) H N I I E) as (e' & h2' & r2 & ? & ? & ? & ? & _ & ?). by exists e', h2', r2.
  - cbn [alloc] in *. rewrite (Eline e h0 h1 h2 (Some a) (Some c) H N), (Ekind e h0 h1 h2 (Some a) (Some c) H N), (Etext e h0 h1 h2 (Some a) (Some c) H N).
    injection E as <- <-. assert (Nd : En e (mkNode (line_of h1 (Some a)) (kind_of h1 (Some a)) (text_of h1 (Some a)) None None) (mkNode (line_of h1 (Some a)) (kind_of h1 (Some a)) (text_of h1 (Some a)) None None)) by (by constructor).
    destruct (Ealloc _ _ _ _ _ _ H Nd) as [H1 W1]. eexists _, _, _. split; [done|]. split; [exact W1|]. split; [exact H1|]. split; [by right|]. rewrite !app_length. cbn. lia.
Qed.

Lemma combine_loop_length ps : forall h n buf, length (fst (combine_loop h n ps buf)) = length h.
Proof.
  induction ps as [|p ps IH]; intros h n buf; [done|]. cbn [combine_loop]. destruct (_ || _); [apply IH|]. rewrite IH. apply same_payload_isolate.
Qed.
Lemma combine_length b h n k ps h' r : Node.combine b h n k ps = Ok (h', r) -> length h' = length h.
Proof.
  assert (Lk : length (set_kind h n k) = length h) by (destruct n; cbn; by rewrite ?alter_length).
  unfold Node.combine. destruct ps as [|p ps]; [by intros [= <- <-]|].
  match goal with |- context [combine_loop ?a ?b ?c ?d] => pose proof (combine_loop_length c a b d) as L; destruct (combine_loop a b c d) as [g w] end.
  cbn [fst] in L. destruct (match n with None => p | Some _ => n end); [|done]. intros [= <- <-]. rewrite alter_length. lia.
Qed.

(** ** Calls *)
Lemma Ecall e h0 h1 h2 f1 f2 o h1' r1 : length h1 <= length h2 -> Eh e h0 h1 h2 -> (forall i, Ep e (f1 i) (f2 i)) -> exec h1 (with_args f1 o) = Ok (h1', r1) ->
  exists e' h2' r2, exec h2 (with_args f2 o) = Ok (h2', r2) /\ wider h2 e e' /\ Eh e' h0 h1' h2' /\ Forall2 (Ep e') r1 r2 /\ length h1' + length h2 = length h1 + length h2'.
Proof.
  intros L H Hf.
  assert (Two : forall (x1 x2 : heap * (ptr * ptr)), E2 e h0 x1 x2 -> same_payload h1 (fst x1) -> same_payload h2 (fst x2) ->
    Ok (fst x1, [fst (snd x1); snd (snd x1)]) = Ok (h1', r1) ->
    exists e' h2' r2, Ok (fst x2, [fst (snd x2); snd (snd x2)]) = Ok (h2', r2) /\ wider h2 e e' /\ Eh e' h0 h1' h2' /\ Forall2 (Ep e') r1 r2 /\ length h1' + length h2 = length h1 + length h2').
  { intros x1 x2 (A & B & C) [L1 _] [L2 _] [= <- <-]. exists e. eexists _, _. split; [done|]. split; [apply wider_refl|]. split; [done|]. split; [by repeat constructor|lia]. }
  assert (One : forall (x1 x2 : heap * ptr), E1 e h0 x1 x2 -> same_payload h1 (fst x1) -> same_payload h2 (fst x2) ->
    Ok (fst x1, [snd x1]) = Ok (h1', r1) ->
    exists e' h2' r2, Ok (fst x2, [snd x2]) = Ok (h2', r2) /\ wider h2 e e' /\ Eh e' h0 h1' h2' /\ Forall2 (Ep e') r1 r2 /\ length h1' + length h2 = length h1 + length h2').
  { intros x1 x2 (A & B) [L1 _] [L2 _] [= <- <-]. exists e. eexists _, _. split; [done|]. split; [apply wider_refl|]. split; [done|]. split; [by repeat constructor|lia]. }
  assert (Zero : forall g1 g2, Eh e h0 g1 g2 -> length g1 = length h1 -> length g2 = length h2 -> Ok (g1, @nil (option nat)) = Ok (h1', r1) ->
    exists e' h2' r2, Ok (g2, @nil (option nat)) = Ok (h2', r2) /\ wider h2 e e' /\ Eh e' h0 h1' h2' /\ Forall2 (Ep e') r1 r2 /\ length h1' + length h2 = length h1 + length h2').
  { intros g1 g2 A L1 L2 [= <- <-]. exists e. eexists _, _. split; [done|]. split; [apply wider_refl|]. split; [done|]. split; [by constructor|lia]. }
  assert (Comb : forall b n k nns, res_bind (Node.combine b h1 (f1 n) k (map f1 nns)) (fun r => Ok (fst r, [snd r])) = Ok (h1', r1) ->
    exists e' h2' r2, res_bind (Node.combine b h2 (f2 n) k (map f2 nns)) (fun r => Ok (fst r, [snd r])) = Ok (h2', r2) /\ wider h2 e e' /\ Eh e' h0 h1' h2' /\ Forall2 (Ep e') r1 r2 /\ length h1' + length h2 = length h1 + length h2').
  { intros b n k nns. destruct (Node.combine b h1 (f1 n) k (map f1 nns)) as [[g1 q1]| |] eqn:E; try done. cbn [res_bind fst snd]. intros [= <- <-].
    destruct (Ecombine e h0 b k (map f1 nns) (map f2 nns) h1 h2 (f1 n) (f2 n) g1 q1) as (g2 & q2 & E' & A & B); [|done|done|done|].
    { clear -Hf. induction nns; constructor; auto. }
    rewrite E'. cbn [res_bind fst snd]. exists e. eexists _, _. split; [done|]. split; [apply wider_refl|]. split; [done|]. split; [by repeat constructor|].
    apply combine_length in E, E'. lia. }
  destruct o as [line text kinds|line texts|n rl|n nn|n nn|n nn|n nn|n|n|n|n|n|n k nns|n k nns|n k|n t]; cbn [with_args exec].
  - destruct (Enew e h0 h1 h2 line text kinds H) as (e' & W & A & B & L2 & L1).
    destruct (new_node h1 line text kinds) as [g1 l1], (new_node h2 line text kinds) as [g2 l2]. cbn [fst snd] in *. intros [= <- <-].
    exists e'. eexists _, _. split; [done|]. split; [done|]. split; [done|]. split; [by repeat constructor|lia].
  - destruct (Enews e h0 h1 h2 line texts H) as (e' & W & A & B & L2). intros [= <- <-].
    exists e'. eexists _, _. split; [done|]. split; [done|]. split; [done|]. split; [by repeat constructor|lia].
  - destruct (copy h1 (f1 n) rl) as [[g1 q1]| |] eqn:E; try done. cbn [res_bind fst snd]. intros [= <- <-].
    destruct (Ecopy e h0 h1 h2 (f1 n) (f2 n) rl g1 q1 L H (Hf n) E) as (e' & g2 & q2 & E' & W & A & B & L2). rewrite E'. cbn [res_bind fst snd].
    exists e'. eexists _, _. split; [done|]. split; [done|]. split; [done|]. split; [by repeat constructor|lia].
  - apply Two; [by apply Einsert_prev|apply same_payload_insert_prev..].
  - apply Two; [by apply Einsert_next|apply same_payload_insert_next..].
  - apply Two; [by apply Ereplace_prev|apply same_payload_replace_prev..].
  - apply Two; [by apply Ereplace_next|apply same_payload_replace_next..].
  - apply One; [by apply Etake_prev|apply same_payload_take_prev..].
  - apply One; [by apply Etake_next|apply same_payload_take_next..].
  - apply One; [by apply Eremove_prev|apply same_payload_remove_prev..].
  - apply One; [by apply Eremove_next|apply same_payload_remove_next..].
  - apply Zero; [by apply Eisolate|apply same_payload_isolate..].
  - apply Comb.
  - apply Comb.
  - apply Zero; [by apply Eset_kind|destruct (f1 n); cbn; by rewrite ?alter_length|destruct (f2 n); cbn; by rewrite ?alter_length].
  - apply Zero; [by apply Eset_text|destruct (f1 n); cbn; by rewrite ?alter_length|destruct (f2 n); cbn; by rewrite ?alter_length].
Qed.

(** ** Parsing *)
Lemma seg_lookup h c : forall p q k x, seg h p c q -> c !! k = Some x ->
  next_of h (Some x) = (match c !! S k with Some y => Some y | None => q end) /\
  prev_of h (Some x) = (match k with O => p | S k => c !! k end).
Proof.
  induction c as [|l c IH]; intros p q k x S E; [done|]. destruct S as (V & P & N & S). destruct k as [|k].
  - injection E as <-. cbn [lookup list_lookup]. rewrite N, P. by destruct c.
  - cbn [lookup list_lookup] in E. destruct (IH _ _ _ _ S E) as [A B]. split; [exact A|]. rewrite B. by destruct k.
Qed.
Lemma concat_pos {A} (L : list (list A)) : NoDup (concat L) -> forall j j' c c' k k' x, L !! j = Some c -> L !! j' = Some c' -> c !! k = Some x -> c' !! k' = Some x -> j = j' /\ k = k'.
Proof.
  induction L as [|d L IH]; intros ND j j' c c' k k' x E E' K K'; [done|]. cbn [concat] in ND. apply NoDup_app in ND as (N1 & N2 & N3).
  assert (In : forall i a m, L !! i = Some a -> a !! m = Some x -> x ∈ concat L).
  { intros i a m Ea Em. apply elem_of_list_In, in_concat. exists a. split; apply elem_of_list_In; by eapply elem_of_list_lookup_2. }
  destruct j as [|j], j' as [|j']; cbn [lookup list_lookup] in E, E'.
  - injection E as ->. injection E' as ->. split; [done|]. exact (NoDup_lookup _ _ _ _ N1 K K').
  - injection E as ->. exfalso. refine (N2 x _ _); [by eapply elem_of_list_lookup_2|by eapply In].
  - injection E' as ->. exfalso. refine (N2 x _ _); [by eapply elem_of_list_lookup_2|by eapply In].
  - destruct (IH N3 _ _ _ _ _ _ _ E E' K K') as [-> ->]. done.
Qed.
Lemma sublist_concat {A} (L M : list (list A)) : Forall2 sublist L M -> concat L `sublist_of` concat M.
Proof. induction 1 as [|a b L M S _ IH]; [constructor|]. cbn [concat]. by apply sublist_app. Qed.

Lemma sub_NoDup {A} (xs ys : list A) : xs `sublist_of` ys -> NoDup ys -> NoDup xs.
Proof.
  induction 1 as [|x xs ys S IH|x xs ys S IH]; intros N; [done| |]; apply NoDup_cons in N as [N1 N2]; [|by apply IH].
  apply NoDup_cons. split; [|by apply IH]. intros Hx. by apply N1, (sublist_in _ _ _ S).
Qed.
(** The chains of the scopes after parsing: separate and new. *)
Lemma parse_chains ord h n text h' scs : any_order ord -> SpecNode.wf h -> parse_scope ord h n text = Ok (h', scs) ->
  SpecNode.wf h' /\ (forall l, valid h l -> h' !! l = h !! l) /\
  exists (cs : list (list loc)), NoDup (concat cs) /\ (forall l, l ∈ concat cs -> length h <= l) /\
    Forall2 (fun sc c => chain h' c /\ head c = sc_node sc) scs cs /\
    parses_to ord h n text (zip_with (fun sc c => (scope_line (Some sc), scope_kind_of (Some sc), map (pay h') c)) scs cs) /\
    exists k, length h' = length h + k /\ exists ts, tokens text ts /\ length ts = k.
Proof.
  intros O W E. destruct (C37_parse_scope_terminates ord h n text O W) as (h'' & scs'' & E' & W' & Fr). rewrite E in E'. injection E' as <- <-.
  split; [done|]. split; [done|].
  destruct (C29_tokeniser_terminates ord h text O W) as (h1 & ls & Tk & _).
  destruct (C34_partition ord h n text h1 ls h' scs O W Tk E) as (g & gs & El & ND & F).
  assert (X : exists cs, Forall2 sublist cs gs /\ Forall2 (fun sc c => chain h' c /\ head c = sc_node sc) scs cs).
  { clear -F. induction F as [|sc gr scs gs (A & B & cur & C1 & C2 & C3 & _) F IH]; [exists []; split; constructor|].
    destruct IH as (cs & D1 & D2). exists (cur :: cs). split; by constructor. }
  destruct X as (cs & S1 & S2). pose proof (sublist_concat _ _ S1) as Sub. exists cs. split; [|split; [|split; [done|split]]].
  - eapply sub_NoDup; [exact Sub|]. rewrite El in ND. by apply NoDup_app in ND as (_ & _ & ND).
  - intros l Hl. destruct (extract_spec ord (any_order_elem ord O) h text W) as (h2 & ls2 & E2 & W2 & P2 & C2 & N2 & T2).
    destruct (tokenised_det _ _ _ _ _ _ _ Tk (conj E2 C2)) as [-> ->]. apply N2. rewrite El. apply elem_of_app. right.
    by eapply sublist_in.
  - exists h', scs. split; [done|]. clear -S2. induction S2 as [|sc c scs cs [A B] S2 IH]; [constructor|]. cbn [zip_with]. constructor; [|done]. by exists c.
  - exists (length ls). split; [by eapply parse_count|]. destruct (parse_inv ord h n text h1 ls h' scs O W Tk E) as (h2 & g' & gs' & _ & _ & _ & _ & _ & _ & T & _).
    exists (map (pay h1) ls). split; [done|apply map_length].
Qed.
Lemma zip_view h1 h2 scs1 cs1 : forall scs2 cs2, length scs1 = length cs1 -> length scs2 = length cs2 ->
  zip_with (fun sc c => (scope_line (Some sc), scope_kind_of (Some sc), map (pay h1) c)) scs1 cs1 =
  zip_with (fun sc c => (scope_line (Some sc), scope_kind_of (Some sc), map (pay h2) c)) scs2 cs2 ->
  Forall2 (fun s1 s2 => scope_line (Some s1) = scope_line (Some s2) /\ scope_kind_of (Some s1) = scope_kind_of (Some s2)) scs1 scs2 /\
  Forall2 (fun c1 c2 => map (pay h1) c1 = map (pay h2) c2) cs1 cs2.
Proof.
  revert cs1. induction scs1 as [|s1 scs1 IH]; intros [|c1 cs1] [|s2 scs2] [|c2 cs2] L1 L2 E; try discriminate L1; try discriminate L2; try discriminate E.
  { split; constructor. }
  cbn [zip_with] in E. injection E as E1 E2 E3 E. destruct (IH _ _ _ (eq_add_S _ _ L1) (eq_add_S _ _ L2) E) as [A B]. split; constructor; try done.
Qed.
Definition pairs (cs1 cs2 : list (list loc)) : rel := fun x y => exists j k c1 c2, cs1 !! j = Some c1 /\ cs2 !! j = Some c2 /\ c1 !! k = Some x /\ c2 !! k = Some y.
Lemma Eparse e h0 h1 h2 ord1 ord2 n text h1' scs1 : any_order ord1 -> any_order ord2 -> SpecNode.wf h1 -> SpecNode.wf h2 -> Eh e h0 h1 h2 ->
  parse_scope ord1 h1 n text = Ok (h1', scs1) ->
  exists e' h2' scs2, parse_scope ord2 h2 n text = Ok (h2', scs2) /\ wider h2 e e' /\ Eh e' h0 h1' h2' /\
    Forall2 (fun s1 s2 => scope_line (Some s1) = scope_line (Some s2) /\ scope_kind_of (Some s1) = scope_kind_of (Some s2) /\ Ep e' (sc_node s1) (sc_node s2)) scs1 scs2 /\
    length h1' + length h2 = length h1 + length h2'.
Proof.
  intros O1 O2 W1 W2 H Ep1. destruct (C37_parse_scope_terminates ord2 h2 n text O2 W2) as (h2' & scs2 & Ep2 & _).
  destruct (parse_chains ord1 h1 n text h1' scs1 O1 W1 Ep1) as (W1' & Fr1 & cs1 & ND1 & N1 & F1 & P1 & k1 & L1 & ts1 & T1 & K1).
  destruct (parse_chains ord2 h2 n text h2' scs2 O2 W2 Ep2) as (W2' & Fr2 & cs2 & ND2 & N2 & F2 & P2 & k2 & L2 & ts2 & T2 & K2).
  rewrite (tokens_unique _ _ _ T2 T1) in K2. pose proof (parses_unique _ _ _ _ _ _ _ _ O1 W1 O2 W2 P1 P2) as EV.
  apply zip_view in EV as [V1 V2]; [|by eapply Forall2_length|by eapply Forall2_length].
  set (e' := fun x y => e x y \/ pairs cs1 cs2 x y).
  assert (Up : forall a b, e a b -> e' a b) by (intros a b X; by left).
  assert (Pin : forall a b, pairs cs1 cs2 a b -> length h1 <= a /\ length h2 <= b).
  { intros a b (j & k & c1 & c2 & A1 & A2 & B1 & B2). split; [apply N1|apply N2]; apply elem_of_list_In, in_concat; [exists c1|exists c2]; split; apply elem_of_list_In; by eapply elem_of_list_lookup_2. }
  assert (Vd : forall a b, e a b -> a < length h1 /\ b < length h2).
  { intros a b X. destruct (eh_at _ _ _ _ H _ _ X) as (m1 & m2 & Q1 & Q2 & _). split; by eapply lookup_lt_Some. }
  exists e', h2', scs2. split; [done|]. split; [split; [done|intros a b [X|X]; [by left|right; exact (proj2 (Pin _ _ X))]]|].
  split; [|split; [|lia]].
  - constructor.
    + intros a b c [X|X] [Y|Y].
      * by eapply eh_fun.
      * apply Vd in X. apply Pin in Y. lia.
      * apply Vd in Y. apply Pin in X. lia.
      * destruct X as (j & k & c1 & c2 & A1 & A2 & B1 & B2), Y as (j' & k' & c1' & c2' & A1' & A2' & B1' & B2').
        destruct (concat_pos _ ND1 _ _ _ _ _ _ _ A1 A1' B1 B1') as [<- <-]. rewrite A2 in A2'. injection A2' as <-. rewrite B2 in B2'. by injection B2'.
    + intros a b c [X|X] [Y|Y].
      * by eapply eh_inj.
      * apply Vd in X. apply Pin in Y. lia.
      * apply Vd in Y. apply Pin in X. lia.
      * destruct X as (j & k & c1 & c2 & A1 & A2 & B1 & B2), Y as (j' & k' & c1' & c2' & A1' & A2' & B1' & B2').
        destruct (concat_pos _ ND2 _ _ _ _ _ _ _ A2 A2' B2 B2') as [<- <-]. rewrite A1 in A1'. injection A1' as <-. rewrite B1 in B1'. by injection B1'.
    + intros a b [X|X].
      * pose proof (Vd _ _ X) as [Va Vb]. destruct (eh_at _ _ _ _ H _ _ X) as (m1 & m2 & Q1 & Q2 & M). rewrite Fr1, Fr2 by done. exists m1, m2. split; [done|]. split; [done|]. by eapply En_mono.
      * destruct X as (j & k & c1 & c2 & A1 & A2 & B1 & B2).
        destruct (Forall2_lookup_r _ _ _ _ _ F1 A1) as (s1 & _ & C1 & _). destruct (Forall2_lookup_r _ _ _ _ _ F2 A2) as (s2 & _ & C2 & _).
        pose proof (Forall2_lookup_lr _ _ _ _ _ _ V2 A1 A2) as EM. cbn beta in EM.
        assert (Lc : length c1 = length c2) by (apply (f_equal length) in EM; by rewrite !map_length in EM).
        assert (Va : valid h1' a) by (eapply valid_chain; [exact C1|by eapply elem_of_list_lookup_2]).
        assert (Vb : valid h2' b) by (eapply valid_chain; [exact C2|by eapply elem_of_list_lookup_2]).
        apply lookup_lt_is_Some in Va as [m1 M1], Vb as [m2 M2]. exists m1, m2. split; [done|]. split; [done|].
        assert (EP : pay h1' a = pay h2' b).
        { apply (f_equal (fun l => l !! k)) in EM. rewrite !list_lookup_fmap, B1, B2 in EM. cbn in EM. congruence. }
        destruct (seg_lookup _ _ _ _ _ _ C1 B1) as [X1 X2]. destruct (seg_lookup _ _ _ _ _ _ C2 B2) as [Y1 Y2].
        unfold pay, line_of, text_of, kind_of, field in EP. rewrite M1, M2 in EP. injection EP as EP1 EP2 EP3.
        unfold next_of, prev_of, field in X1, X2, Y1, Y2. rewrite M1 in X1, X2. rewrite M2 in Y1, Y2.
        assert (At : forall i, Ep e' (c1 !! i) (c2 !! i)).
        { intros i. destruct (c1 !! i) as [x|] eqn:Ex, (c2 !! i) as [y|] eqn:Ey; cbn; try done.
          - right. by exists j, i, c1, c2.
          - apply lookup_lt_Some in Ex. apply lookup_ge_None in Ey. lia.
          - apply lookup_lt_Some in Ey. apply lookup_ge_None in Ex. lia. }
        constructor; try done.
        -- rewrite X2, Y2. destruct k; [done|apply At].
        -- rewrite X1, Y1. specialize (At (S k)). by destruct (c1 !! S k), (c2 !! S k).
    + intros x m Ex Nx. rewrite Fr2; [apply (eh_frame _ _ _ _ H x m Ex); intros a Ha; by eapply Nx, Up|]. unfold valid. apply lookup_lt_Some in Ex. pose proof (eh_len _ _ _ _ H). lia.
    + pose proof (eh_len _ _ _ _ H). lia.
  - apply Forall2_same_length_lookup. split; [by eapply Forall2_length|]. intros i s1 s2 Es1 Es2.
    destruct (Forall2_lookup_lr _ _ _ _ _ _ V1 Es1 Es2) as [? ?]. split; [done|]. split; [done|].
    destruct (Forall2_lookup_l _ _ _ _ _ F1 Es1) as (c1 & A1 & C1 & D1). destruct (Forall2_lookup_l _ _ _ _ _ F2 Es2) as (c2 & A2 & C2 & D2). rewrite <- D1, <- D2.
    pose proof (Forall2_lookup_lr _ _ _ _ _ _ V2 A1 A2) as EM. cbn beta in EM.
    destruct c1 as [|x c1], c2 as [|y c2]; try done. cbn. right. by exists i, 0, (x :: c1), (y :: c2).
Qed.

(** ** Steps *)
Lemma Epos e h0 h1 h2 K1 K2 p1 p2 : Eh e h0 h1 h2 -> Forall2 (Ep e) K1 K2 -> Ep e p1 p2 -> pos K2 p2 = pos K1 p1.
Proof.
  intros H F P. destruct p1 as [a|], p2 as [b|]; try done. unfold pos. induction F as [|q1 q2 K1 K2 Q F IH]; [done|]. cbn [list_find].
  pose proof (Ep_eqb e h0 h1 h2 _ _ _ _ H P Q) as E. unfold ptr_eqb in E.
  destruct (decide (Some b = q2)) as [D2|D2], (decide (Some a = q1)) as [D1|D1].
  - done.
  - exfalso. rewrite bool_decide_eq_true_2, bool_decide_eq_false_2 in E by done. done.
  - exfalso. rewrite bool_decide_eq_false_2, bool_decide_eq_true_2 in E by done. done.
  - destruct (list_find _ K1) as [[i x]|], (list_find _ K2) as [[j y]|]; cbn in *; congruence.
Qed.
Lemma Eat_pos e K1 K2 i : Forall2 (Ep e) K1 K2 -> Ep e (at_pos K1 i) (at_pos K2 i).
Proof.
  intros F. destruct i as [i|]; [|done]. cbn. destruct (K1 !! i) as [p|] eqn:E.
  - destruct (Forall2_lookup_l _ _ _ _ _ F E) as (q & -> & Q). exact Q.
  - apply lookup_ge_None in E. rewrite (lookup_ge_None_2 K2); [done|]. by rewrite <- (Forall2_length _ _ _ F).
Qed.
Lemma Emap_pos e h0 h1 h2 T1 T2 ps1 ps2 : Eh e h0 h1 h2 -> Forall2 (Ep e) T1 T2 -> Forall2 (Ep e) ps1 ps2 -> map (pos T2) ps2 = map (pos T1) ps1.
Proof. intros H F P. induction P as [|p1 p2 l1 l2 Q P IH]; [done|]. cbn [map]. rewrite IH. f_equal. by eapply Epos. Qed.
Lemma Emap_scopes e h0 h1 h2 T1 T2 l1 l2 : Eh e h0 h1 h2 -> Forall2 (Ep e) T1 T2 ->
  Forall2 (fun s1 s2 => scope_line (Some s1) = scope_line (Some s2) /\ scope_kind_of (Some s1) = scope_kind_of (Some s2) /\ Ep e (sc_node s1) (sc_node s2)) l1 l2 ->
  map (fun sc => (scope_line (Some sc), scope_kind_of (Some sc), pos T2 (sc_node sc))) l2 = map (fun sc => (scope_line (Some sc), scope_kind_of (Some sc), pos T1 (sc_node sc))) l1.
Proof.
  intros H F P. induction P as [|s1 s2 l1 l2 (Q1 & Q2 & Q) P IH]; [done|]. cbn [map]. rewrite IH, Q1, Q2. do 2 f_equal. by eapply Epos.
Qed.
Lemma Emono_tab (e e' : rel) K1 K2 : (forall a b, e a b -> e' a b) -> Forall2 (Ep e) K1 K2 -> Forall2 (Ep e') K1 K2.
Proof. intros H F. eapply Forall2_impl; [exact F|]. intros p q. by apply Ep_mono. Qed.

Lemma Estep e h0 h1 h2 K1 K2 ord1 ord2 c h1' K1' o : any_order ord1 -> any_order ord2 -> SpecNode.wf h1 -> SpecNode.wf h2 -> length h1 <= length h2 ->
  Eh e h0 h1 h2 -> Forall2 (Ep e) K1 K2 -> step ord1 h1 K1 c = Ok (h1', K1', o) ->
  exists e' h2' K2', step ord2 h2 K2 c = Ok (h2', K2', o) /\ wider h2 e e' /\ Eh e' h0 h1' h2' /\ Forall2 (Ep e') K1' K2' /\
    length h1' <= length h2'.
Proof.
  intros O1 O2 W1 W2 L H F E.
  assert (Got : forall e' g1 g2 ps1 ps2, wider h2 e e' -> Eh e' h0 g1 g2 -> Forall2 (Ep e') ps1 ps2 -> length g1 <= length g2 ->
    Ok (g1, K1 ++ ps1, SawNodes (map (pos (K1 ++ ps1)) ps1)) = Ok (h1', K1', o) ->
    exists e' h2' K2', Ok (g2, K2 ++ ps2, SawNodes (map (pos (K2 ++ ps2)) ps2)) = Ok (h2', K2', o) /\ wider h2 e e' /\ Eh e' h0 h1' h2' /\ Forall2 (Ep e') K1' K2' /\ length h1' <= length h2').
  { intros e' g1 g2 ps1 ps2 Wd G P Lg [= <- <- <-]. exists e'. assert (FK : Forall2 (Ep e') (K1 ++ ps1) (K2 ++ ps2)) by (apply Forall2_app; [|done]; eapply Emono_tab; [apply Wd|done]).
    eexists _, _. split.
    - do 3 f_equal. by eapply Emap_pos.
    - done. }
  destruct c as [op0|i|i|i|n text]; cbn [step] in *.
  - destruct (exec h1 (with_args (at_pos K1) op0)) as [[g1 r1]| |] eqn:Ex; try done. cbn [res_bind fst snd] in E.
    destruct (Ecall e h0 h1 h2 (at_pos K1) (at_pos K2) op0 g1 r1 L H (fun i => Eat_pos e K1 K2 i F) Ex) as (e' & g2 & r2 & Ex2 & Wd & G & R & Lg).
    rewrite Ex2. cbn [res_bind fst snd]. eapply Got; [exact Wd|exact G|exact R|lia|exact E].
  - eapply Got; [apply wider_refl|exact H| |exact L|exact E]. constructor; [|constructor]. eapply Enext; [exact H|by apply Eat_pos].
  - eapply Got; [apply wider_refl|exact H| |exact L|exact E]. constructor; [|constructor]. eapply Eprev; [exact H|by apply Eat_pos].
  - injection E as <- <- <-. exists e, h2, K2. pose proof (Eat_pos e K1 K2 i F) as P.
    rewrite (Eline e h0 h1 h2 _ _ H P), (Etext e h0 h1 h2 _ _ H P), (Ekind e h0 h1 h2 _ _ H P). split; [done|]. split; [apply wider_refl|done].
  - destruct (parse_scope ord1 h1 n text) as [[g1 scs1]| |] eqn:Ex; try done. cbn [res_bind fst snd] in E.
    destruct (Eparse e h0 h1 h2 ord1 ord2 n text g1 scs1 O1 O2 W1 W2 H Ex) as (e' & g2 & scs2 & Ex2 & Wd & G & R & Lg).
    rewrite Ex2. cbn [res_bind fst snd]. injection E as <- <- <-. exists e'.
    assert (FK : Forall2 (Ep e') (K1 ++ map sc_node scs1) (K2 ++ map sc_node scs2)).
    { apply Forall2_app; [eapply Emono_tab; [apply Wd|done]|]. clear -R. induction R as [|s1 s2 l1 l2 (_ & _ & Q) R IH]; constructor; done. }
    eexists _, _. split; [|split; [exact Wd|split; [exact G|split; [exact FK|lia]]]].
    do 3 f_equal. by eapply Emap_scopes.
Qed.

(** ** Well-formedness is kept *)
Lemma step_wf ord h K c h' K' o : any_order ord -> SpecNode.wf h -> Forall (live h) K -> step ord h K c = Ok (h', K', o) -> SpecNode.wf h'.
Proof.
  intros O W F. destruct c as [op0|i|i|i|n text]; cbn [step].
  - destruct (exec h (with_args (at_pos K) op0)) as [[g r]| |] eqn:E; try done. cbn [res_bind fst snd]. intros [= <- <- <-].
    refine (proj1 (exec_wf h _ g r W _ E)).
    assert (L : forall i, live h (at_pos K i)).
    { intros [i|]; [|done]. cbn. destruct (K !! i) as [p|] eqn:Ep; [|done]. cbn. rewrite Forall_forall in F. apply F. by eapply elem_of_list_lookup_2. }
    unfold legal. destruct op0; cbn [with_args args]; repeat (apply Forall_cons; split; [apply L|]); try apply Forall_nil_2.
    all: apply Forall_forall; intros p Hp; apply elem_of_list_fmap in Hp as (q & -> & _); apply L.
  - by intros [= <- <- <-].
  - by intros [= <- <- <-].
  - by intros [= <- <- <-].
  - destruct (parse_scope ord h n text) as [[g scs]| |] eqn:E; try done. cbn [res_bind fst snd]. intros [= <- <- <-].
    destruct (C37_parse_scope_terminates ord h n text O W) as (h2 & scs2 & E2 & W2 & _). rewrite E in E2. by injection E2 as <- <-.
Qed.
Lemma Elive e h0 h1 h2 K1 K2 : Eh e h0 h1 h2 -> Forall2 (Ep e) K1 K2 -> Forall (live h1) K1 /\ Forall (live h2) K2.
Proof.
  intros H F. induction F as [|p1 p2 K1 K2 P F [IH1 IH2]]; [by split|]. split; constructor; try done.
  - destruct p1, p2; try done. destruct (eh_at _ _ _ _ H _ _ P) as (m1 & m2 & E1 & E2 & _). by eapply lookup_lt_Some.
  - destruct p1, p2; try done. destruct (eh_at _ _ _ _ H _ _ P) as (m1 & m2 & E1 & E2 & _). by eapply lookup_lt_Some.
Qed.
(** A relation survives what happens elsewhere. *)
Lemma Eh_base e h0 h1 h2 : Eh e h0 h1 h2 -> Eh e h2 h1 h2.
Proof. intros [F I A Fr L]. constructor; done. Qed.
Lemma Eh_elsewhere e h1 h2 h2' : Eh e h2 h1 h2 -> (forall a x n, e a x -> h2 !! x = Some n -> h2' !! x = Some n) -> length h2 <= length h2' -> Eh e h2' h1 h2'.
Proof.
  intros [F I A Fr L] X Lt. constructor; [done|done| |done|done].
  intros a b E. destruct (A _ _ E) as (n1 & n2 & E1 & E2 & N). exists n1, n2. split; [done|]. split; [by eapply X|done].
Qed.

Lemma turns_cons i j sched : turns i (j :: sched) = (if decide (j = i) then 1 else 0) + turns i sched.
Proof. unfold turns. rewrite filter_cons. by destruct (decide (j = i)). Qed.

Definition apart (e1 e2 : rel) : Prop := forall a b x, e1 a x -> e2 b x -> False.
(** What connects goroutine [i] in the common run with its run alone. *)
Record linked (e : rel) (h : heap) (r : routine) (hs : heap) (rs : routine) : Prop :=
  { lk_heap : Eh e h hs h; lk_tab : Forall2 (Ep e) (fst rs) (fst r); lk_seen : snd rs = snd r;
    lk_wf : SpecNode.wf hs; lk_len : length hs <= length h }.
Definition upd {A} (f : nat -> A) (i : nat) (x : A) : nat -> A := fun j => if decide (j = i) then x else f j.

Lemma together_sim (cs : nat -> program) (sched : list nat) : forall ords (sords : nat -> nat -> nat -> list (str * ext)) h (rs : list routine) (E : nat -> rel) (HS : nat -> heap) (RS : nat -> routine) (FS : nat -> heap * routine),
  (forall k, any_order (ords k)) -> (forall i k, any_order (sords i k)) -> SpecNode.wf h ->
  (forall i r, rs !! i = Some r -> linked (E i) h r (HS i) (RS i)) ->
  (forall i j, i <> j -> i < length rs -> j < length rs -> apart (E i) (E j)) ->
  (forall i, i < length rs -> alone (sords i) (turns i sched) (HS i) (cs i) (RS i) = Ok (FS i)) ->
  exists h' rs', together ords sched h cs rs = Ok (h', rs') /\ length rs' = length rs /\ SpecNode.wf h' /\
    exists E', (forall i r, rs' !! i = Some r -> linked (E' i) h' r (fst (FS i)) (snd (FS i))) /\
      (forall i j, i <> j -> i < length rs -> j < length rs -> apart (E' i) (E' j)).
Proof.
  induction sched as [|i sched IH]; intros ords sords h rs E HS RS FS O SO W Lk Ap Al.
  { exists h, rs. split; [done|]. split; [done|]. split; [done|]. exists E. split; [|done]. intros i r Er. specialize (Al i (lookup_lt_Some _ _ _ Er)). cbn in Al. injection Al as Al. rewrite <- Al. cbn. by apply Lk. }
  cbn [together]. destruct (rs !! i) as [r|] eqn:Er.
  2: { apply lookup_ge_None in Er. apply (IH _ sords h rs E HS RS FS); try done.
       intros j Lj. specialize (Al j Lj). rewrite turns_cons in Al. by rewrite decide_False in Al by lia. }
  pose proof (lookup_lt_Some _ _ _ Er) as Li. pose proof (Al i Li) as Ai. rewrite turns_cons, decide_True in Ai by done. cbn [plus alone] in Ai.
  destruct (turn (sords i 0) (HS i) (cs i) (RS i)) as [[hs1 rs1]| |] eqn:Et; try done. cbn [res_bind fst snd] in Ai.
  unfold turn in Et. destruct (step (sords i 0) (HS i) (fst (RS i)) (cs i (snd (RS i)))) as [[[g1 K1] o]| |] eqn:Es; try done. cbn [res_bind fst snd] in Et. injection Et as <- <-.
  destruct (Lk i r Er) as [LH LT LS LW LL].
  destruct (Estep (E i) h (HS i) h (fst (RS i)) (fst r) (sords i 0) (ords 0) (cs i (snd (RS i))) g1 K1 o (SO _ _) (O _) LW W LL LH LT Es) as (e' & g2 & K2 & Es2 & Wd & G & FK & Lg).
  destruct (Elive _ _ _ _ _ _ LH LT) as [Lv1 Lv2].
  unfold turn. rewrite <- LS, Es2. cbn [res_bind fst snd].
  assert (Lh : length h <= length g2) by apply G.
  assert (Oth : forall j a x n, j <> i -> j < length rs -> E j a x -> h !! x = Some n -> g2 !! x = Some n).
  { intros j a x n Nj Lj Ex Hx. apply (eh_frame _ _ _ _ G x n Hx). intros b Hb. destruct (proj2 Wd b x Hb) as [Hb'|Hb']; [by eapply (Ap j i Nj Lj Li)|]. apply lookup_lt_Some in Hx. lia. }
  destruct (IH (fun k => ords (S k)) (upd sords i (fun k => sords i (S k))) g2 (<[i := (K2, snd (RS i) ++ [o])]> rs) (upd E i e') (upd HS i g1) (upd RS i (K1, snd (RS i) ++ [o])) FS) as (h' & rs' & E1 & E2 & E3 & E' & E4 & E5).
  - intros k. apply O.
  - intros j k. unfold upd. case_decide; apply SO.
  - eapply step_wf; [apply O|exact W|exact Lv2|exact Es2].
  - intros j r' Ej. unfold upd. case_decide as Dj.
    + subst j. rewrite list_lookup_insert in Ej by done. injection Ej as <-. constructor; cbn [fst snd]; try done; [by eapply Eh_base|]. eapply step_wf; [apply SO|exact LW|exact Lv1|exact Es].
    + rewrite list_lookup_insert_ne in Ej by done. destruct (Lk j r' Ej) as [LH' LT' LS' LW' LL']. constructor; try done; [|lia]. eapply Eh_elsewhere; [exact LH'| |done].
      intros a x n. apply Oth; [done|by eapply lookup_lt_Some].
  - rewrite insert_length. intros j k Njk Lj Lk' a b x. unfold upd. case_decide as Dj; case_decide as Dk; subst; try done.
    + intros Ha Hb. destruct (proj2 Wd a x Ha) as [Ha'|Ha']; [by eapply (Ap i k)|].
      destruct (lookup_lt_is_Some_2 rs k Lk') as [rk Ek]. destruct (eh_at _ _ _ _ (lk_heap _ _ _ _ _ (Lk k rk Ek)) _ _ Hb) as (? & ? & _ & Q & _). apply lookup_lt_Some in Q. lia.
    + intros Ha Hb. destruct (proj2 Wd b x Hb) as [Hb'|Hb']; [by eapply (Ap j i)|].
      destruct (lookup_lt_is_Some_2 rs j Lj) as [rk Ek]. destruct (eh_at _ _ _ _ (lk_heap _ _ _ _ _ (Lk j rk Ek)) _ _ Ha) as (? & ? & _ & Q & _). apply lookup_lt_Some in Q. lia.
    + by eapply Ap.
  - rewrite insert_length. intros j Lj. unfold upd. case_decide as Dj; [subst j; exact Ai|]. specialize (Al j Lj). rewrite turns_cons, decide_False in Al by done. exact Al.
  - rewrite insert_length in *. exists h', rs'. split; [exact E1|]. split; [done|]. split; [done|]. by exists E'.
Qed.

Lemma Eh_self h K : SpecNode.wf h -> Forall (live h) K -> Eh (fun a b => a = b /\ reach h K a) h h h.
Proof.
  intros W F. constructor; [|by intros a b c [-> _] [-> _]| |done|done].
  { intros a b c [-> _] [-> _]. done. }
  intros a b [<- R].
  assert (V : valid h a).
  { induction R as [l Hl|x y _ _ E|x y _ _ E]; [|by eapply wf_next_valid|by eapply wf_prev_valid]. rewrite Forall_forall in F. by apply (F _ Hl). }
  apply lookup_lt_is_Some in V as [n En]. exists n, n. split; [done|]. split; [done|]. constructor; try done.
  - destruct (n_prev n) as [b|] eqn:Eb; [|done]. split; [done|]. eapply reach_prev; [exact R|]. unfold prev_of, field. by rewrite En.
  - destruct (n_next n) as [b|] eqn:Eb; [|done]. split; [done|]. eapply reach_next; [exact R|]. unfold next_of, field. by rewrite En.
Qed.
Lemma together_alone ords (sords : nat -> nat -> nat -> list (str * ext)) sched h cs (rs : list routine) (FS : nat -> heap * routine) :
  (forall k, any_order (ords k)) -> (forall i k, any_order (sords i k)) -> SpecNode.wf h -> (forall i r, rs !! i = Some r -> Forall (live h) (fst r)) ->
  (forall i j r r' l, i <> j -> rs !! i = Some r -> rs !! j = Some r' -> reach h (fst r) l -> ~ reach h (fst r') l) ->
  (forall i r, rs !! i = Some r -> alone (sords i) (turns i sched) h (cs i) r = Ok (FS i)) ->
  exists h' rs', together ords sched h cs rs = Ok (h', rs') /\ length rs' = length rs /\ SpecNode.wf h' /\
    exists E', (forall i r, rs' !! i = Some r -> linked (E' i) h' r (fst (FS i)) (snd (FS i))) /\
      (forall i j, i <> j -> i < length rs -> j < length rs -> apart (E' i) (E' j)).
Proof.
  intros O SO W Lv D Al. set (tab i := match rs !! i with Some r => fst r | None => [] end).
  eapply (together_sim cs sched ords sords h rs (fun i a b => a = b /\ reach h (tab i) a) (fun _ => h) (fun i => default ([], []) (rs !! i)) FS); try done.
  - intros i r Er. rewrite Er. cbn [default]. unfold tab. rewrite Er. constructor; try done; [by apply Eh_self; [|eapply Lv]|].
    assert (X : forall K, (forall p, p ∈ K -> p ∈ fst r) -> Forall2 (Ep (fun a b => a = b /\ reach h (fst r) a)) K K).
    { induction K as [|p K IH]; intros HK; constructor; [|apply IH; intros q Hq; apply HK; by right].
      destruct p as [l|]; [|done]. split; [done|]. apply reach_here, HK. by left. }
    by apply X.
  - intros i j Nij Li Lj a b x [-> Ha] [-> Hb]. destruct (lookup_lt_is_Some_2 rs i Li) as [ri Ei], (lookup_lt_is_Some_2 rs j Lj) as [rj Ej].
    unfold tab in Ha, Hb. rewrite Ei in Ha. rewrite Ej in Hb. by eapply (D i j ri rj x).
  - intros i Li. destruct (lookup_lt_is_Some_2 rs i Li) as [ri Ei]. rewrite Ei. by apply Al.
Qed.
