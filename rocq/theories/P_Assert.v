(** C70: the test helpers. *)
From Verif Require Import SpecAssert.

(** ** Types *)
Fixpoint gtype_rect' (P : gtype -> Prop) (Hb : forall k n, P (TBasic k n)) (Hf : forall k n, P (TFloat k n)) (Hr : forall k n, P (TRef k n))
  (Ha : forall n l e, P e -> P (TArray n l e)) (Hs : forall n fs, Forall P fs -> P (TStruct n fs)) (Hi : forall n, P (TIface n)) (t : gtype) : P t :=
  match t with
  | TBasic k n => Hb k n
  | TFloat k n => Hf k n
  | TRef k n => Hr k n
  | TArray n l e => Ha n l e (gtype_rect' P Hb Hf Hr Ha Hs Hi e)
  | TStruct n fs => Hs n fs ((fix go fs : Forall P fs := match fs with [] => @Forall_nil_2 gtype P | f :: fs => @Forall_cons_2 gtype P f fs (gtype_rect' P Hb Hf Hr Ha Hs Hi f) (go fs) end) fs)
  | TIface n => Hi n
  end.
Lemma ref_kind_eqb_true a b : ref_kind_eqb a b = true <-> a = b.
Proof. by destruct a, b. Qed.
Lemma gtype_eqb_true a : forall b, gtype_eqb a b = true <-> a = b.
Proof.
  induction a as [k n|k n|k n|n l e IH|n fs IH|n] using gtype_rect'; intros [k' n'|k' n'|k' n'|n' l' e'|n' fs'|n']; cbn [gtype_eqb]; try (split; [discriminate|intros [=]]; fail).
  - rewrite andb_true_iff, !Nat.eqb_eq. split; [intros [-> ->]; done|intros [= -> ->]; done].
  - rewrite andb_true_iff, !Nat.eqb_eq. split; [intros [-> ->]; done|intros [= -> ->]; done].
  - rewrite andb_true_iff, Nat.eqb_eq, ref_kind_eqb_true. split; [intros [-> ->]; done|intros [= -> ->]; done].
  - rewrite !andb_true_iff, !Nat.eqb_eq, IH. split; [intros [[-> ->] ->]; done|intros [= -> -> ->]; done].
  - rewrite andb_true_iff, Nat.eqb_eq.
    assert (G : (fix eqs xs ys := match xs, ys with [], [] => true | x :: xs, y :: ys => gtype_eqb x y && eqs xs ys | _, _ => false end) fs fs' = true <-> fs = fs').
    { revert fs'. induction IH as [|f fs Hf _ IHs]; intros [|f' fs']; try done. rewrite andb_true_iff, Hf, IHs. split; [intros [-> ->]; done|intros [= -> ->]; done]. }
    rewrite G. split; [intros [-> ->]; done|intros [= -> ->]; done].
  - rewrite Nat.eqb_eq. split; [intros ->; done|intros [= ->]; done].
Qed.
(** ** Values *)
Fixpoint gval_rect' (P : gval -> Prop) (Hb : forall k n p, P (VBasic k n p)) (Hf : forall k n x, P (VFloat k n x)) (Hr : forall k n a, P (VRef k n a))
  (Ha : forall n e vs, Forall P vs -> P (VArray n e vs)) (Hs : forall n vs, Forall P vs -> P (VStruct n vs)) (Hn : forall n, P (VIface n None))
  (Hi : forall n v, P v -> P (VIface n (Some v))) (t : gval) : P t :=
  let go := fix go vs : Forall P vs := match vs with [] => @Forall_nil_2 gval P | f :: fs => @Forall_cons_2 gval P f fs (gval_rect' P Hb Hf Hr Ha Hs Hn Hi f) (go fs) end in
  match t with
  | VBasic k n p => Hb k n p
  | VFloat k n x => Hf k n x
  | VRef k n a => Hr k n a
  | VArray n e vs => Ha n e vs (go vs)
  | VStruct n vs => Hs n vs (go vs)
  | VIface n None => Hn n
  | VIface n (Some v) => Hi n v (gval_rect' P Hb Hf Hr Ha Hs Hn Hi v)
  end.
Fixpoint rows_equal (vs us : list gval) : res bool :=
  match vs, us with
  | v :: vs, u :: us => res_bind (value_equal v u) (fun b => if b then rows_equal vs us else Ok false)
  | _, _ => Ok true
  end.
Definition concrete_equal (v u : gval) : res bool :=
  if negb (gtype_eqb (type_of v) (type_of u)) then Ok false
  else match v, u with
       | VBasic _ _ p, VBasic _ _ q => Ok (str_eqb p q)
       | VFloat _ _ (Some x), VFloat _ _ (Some y) => Ok (x =? y)%Z
       | VFloat _ _ _, VFloat _ _ _ => Ok false
       | VRef (RMap | RSlice | RFunc) _ _, _ => Panic
       | VRef _ _ a, VRef _ _ b => Ok (nat_eqb_opt a b)
       | VArray _ e [], VArray _ _ _ => if comparable e then Ok true else Panic
       | VArray _ _ vs, VArray _ _ us => rows_equal vs us
       | VStruct _ vs, VStruct _ us => rows_equal vs us
       | _, _ => Ok false
       end.
Lemma value_equal_concrete v u : no_iface v -> value_equal v u = match held u with None => Ok false | Some u => concrete_equal v u end.
Proof. by destruct v. Qed.
Lemma value_equal_iface v n o : no_iface v -> value_equal v (VIface n o) = match o with None => Ok false | Some u => concrete_equal v u end.
Proof. intros N. by rewrite value_equal_concrete. Qed.
Lemma held_self u : no_iface u -> held u = Some u.
Proof. by destruct u. Qed.
Lemma nat_eqb_opt_true a b : nat_eqb_opt a b = true <-> a = b.
Proof. destruct a, b; cbn; try done. rewrite Nat.eqb_eq. split; [intros ->; done|by intros [= ->]]. Qed.
Lemma equal_type v : forall u, equal_vals v u -> type_of v = type_of u.
Proof.
  induction v as [| | |n e vs IH|n vs IH|n|n v IH] using gval_rect'; intros u H; inversion H; subst; cbn [type_of]; try done.
  - match goal with F : Forall2 equal_vals vs _ |- _ => by rewrite (Forall2_length _ _ _ F) end.
  - f_equal. match goal with F : Forall2 equal_vals vs _ |- _ => clear H; induction F as [|x y xs ys E _ IHF]; [done|]; inversion_clear IH; cbn [map]; f_equal; auto end.
Qed.
Lemma equal_no_iface v u : equal_vals v u -> no_iface v -> no_iface u.
Proof. by intros [] . Qed.

Definition decided (v u : gval) (r : res bool) : Prop := exists b, r = Ok b /\ (b = true <-> equal_vals v u).
Lemma decide_yes v u : equal_vals v u -> decided v u (Ok true).
Proof. intros H. by exists true. Qed.
Lemma decide_no v u : ~ equal_vals v u -> decided v u (Ok false).
Proof. intros H. by exists false. Qed.
Lemma rows_decided vs : forall us,
  Forall (fun v => forall u, well_typed v -> well_typed u -> plain v -> type_of v = type_of u -> decided v u (value_equal v u)) vs ->
  Forall well_typed vs -> Forall well_typed us -> Forall plain vs -> map type_of vs = map type_of us ->
  exists b, rows_equal vs us = Ok b /\ (b = true <-> Forall2 equal_vals vs us).
Proof.
  induction vs as [|v vs IH]; intros [|u us] Hv Wv Wu Pv Et; try discriminate Et.
  - exists true. split; [done|]. split; [constructor|done].
  - cbn [map] in Et. injection Et as Et1 Et2. inversion_clear Hv as [|? ? H1 H2]. inversion_clear Wv as [|? ? W1 W2]. inversion_clear Wu as [|? ? U1 U2]. inversion_clear Pv as [|? ? P1 P2].
    cbn [rows_equal]. destruct (H1 u W1 U1 P1 Et1) as (b & -> & Hb). cbn [res_bind]. destruct b.
    + destruct (IH us H2 W2 U2 P2 Et2) as (b & -> & Hb'). exists b. split; [done|]. rewrite Hb'. split; [|by inversion 1]. intros F. constructor; [by apply Hb|done].
    + exists false. split; [done|]. split; [done|]. intros F. inversion F. by apply Hb.
Qed.
Definition concrete_ok (v : gval) : Prop := forall u, well_typed v -> well_typed u -> plain v -> no_iface v -> no_iface u -> decided v u (concrete_equal v u).
Definition value_ok (v : gval) : Prop := forall u, well_typed v -> well_typed u -> plain v -> type_of v = type_of u -> decided v u (value_equal v u).
Lemma value_of_concrete v : no_iface v -> concrete_ok v -> value_ok v.
Proof.
  intros N C u Wv Wu Pv Et. assert (Nu : no_iface u) by (destruct v, u; try done; discriminate Et).
  rewrite value_equal_concrete, (held_self u Nu) by done. by apply C.
Qed.
Lemma type_cases v u (r : res bool) : (type_of v = type_of u -> decided v u r) ->
  decided v u (if negb (gtype_eqb (type_of v) (type_of u)) then Ok false else r).
Proof.
  intros H. destruct (gtype_eqb (type_of v) (type_of u)) eqn:E; cbn [negb].
  - apply H. by apply gtype_eqb_true.
  - apply decide_no. intros X. apply equal_type, gtype_eqb_true in X. congruence.
Qed.
Lemma value_decided v : concrete_ok v /\ value_ok v.
Proof.
  assert (G : forall v, no_iface v -> concrete_ok v -> concrete_ok v /\ value_ok v) by (intros w N C; split; [done|by apply value_of_concrete]).
  induction v as [k n p|k n x|k n a|n e vs IH|n vs IH|n|n v [IH1 IH2]] using gval_rect'.
  - apply G; [done|]. intros u _ _ _ _ _. apply type_cases. destruct u; try discriminate. cbn [type_of]. intros [= <- <-].
    destruct (str_eqb p payload) eqn:E; unfold str_eqb in E; [apply bool_decide_eq_true in E as ->; apply decide_yes; constructor|].
    apply bool_decide_eq_false in E. apply decide_no. intros X. by inversion X.
  - apply G; [done|]. intros u _ _ _ _ _. apply type_cases. destruct u as [|k' n' y| | | |]; try discriminate. cbn [type_of]. intros [= <- <-].
    destruct x as [x|]; [|apply decide_no; intros X; by inversion X]. destruct y as [y|]; [|apply decide_no; intros X; by inversion X].
    destruct (Z.eqb_spec x y) as [->|N]; [apply decide_yes; constructor|apply decide_no; intros X; inversion X; congruence].
  - apply G; [done|]. intros u _ _ P _ _. apply type_cases. destruct u as [| |k' n' b| | |]; try discriminate. cbn [type_of]. intros [= <- <-].
    inversion_clear P as [| |? ? ? K| | | |]. assert (D : decided (VRef k n a) (VRef k n b) (Ok (nat_eqb_opt a b))).
    { destruct (nat_eqb_opt a b) eqn:E; [apply nat_eqb_opt_true in E as ->; apply decide_yes; constructor|]. apply decide_no. intros X. inversion X; subst. by rewrite (proj2 (nat_eqb_opt_true b b) eq_refl) in E. }
    destruct K as [->|[->| ->]]; exact D.
  - apply G; [done|]. intros u Wv Wu P _ _. apply type_cases. destruct u as [| | |n' e' us| |]; try discriminate. cbn [type_of]. intros [= <- El <-].
    inversion_clear P as [| | |? ? ? Ce Pv| | |]. inversion_clear Wv as [| | |? ? ? Wv'| | |]. inversion_clear Wu as [| | |? ? ? Wu'| | |].
    assert (R : decided (VArray n e vs) (VArray n e us) (rows_equal vs us)).
    { destruct (rows_decided vs us) as (b & -> & Hb).
      - eapply Forall_impl; [exact IH|]. intros v [_ H] u. by apply H.
      - eapply Forall_impl; [exact Wv'|]. by intros ? [].
      - eapply Forall_impl; [exact Wu'|]. by intros ? [].
      - done.
      - clear -Wv' Wu' El. revert us Wu' El. induction Wv' as [|v vs [_ Ev] _ IH]; intros [|u us] Wu El; try discriminate El; [done|]. inversion_clear Wu as [|? ? [_ Eu] Wu']. cbn [map]. f_equal; [congruence|]. apply IH; [done|]. by injection El.
      - exists b. split; [done|]. rewrite Hb. split; [by constructor|by inversion 1]. }
    destruct vs as [|v vs]; [|exact R]. rewrite Ce. exact R.
  - apply G; [done|]. intros u Wv Wu P _ _. apply type_cases. destruct u as [| | | |n' us|]; try discriminate. cbn [type_of]. intros [= <- Et].
    inversion_clear P as [| | | |? ? Pv| |]. inversion_clear Wv as [| | | |? ? Wv'| |]. inversion_clear Wu as [| | | |? ? Wu'| |].
    destruct (rows_decided vs us) as (b & E & Hb); try done.
    + eapply Forall_impl; [exact IH|]. intros v [_ H] u. by apply H.
    + cbv iota. rewrite E. exists b. split; [done|]. rewrite Hb. split; [by constructor|by inversion 1].
  - split; [by intros ? ? ? ? []|]. intros u _ _ _ Et. destruct u as [| | | | |n' [u|]]; try discriminate Et; injection Et as <-; cbn [value_equal held].
    + apply decide_no. intros X. by inversion X.
    + apply decide_yes. constructor.
  - split; [by intros ? ? ? ? []|]. intros u Wv Wu P Et. destruct u as [| | | | |n' o]; try discriminate Et; injection Et as <-. inversion_clear Wv as [| | | | | |? ? Wv' Nv]. inversion_clear P as [| | | | | |? ? Pv].
    cbn [value_equal]. rewrite value_equal_iface by done. destruct o as [u|]; [|apply decide_no; intros X; by inversion X].
    inversion_clear Wu as [| | | | | |? ? Wu' Nu]. destruct (IH1 u Wv' Wu' Pv Nv Nu) as (b & -> & Hb). exists b. split; [done|]. rewrite Hb. split; [by constructor|by inversion 1].
Qed.

(** ** C70 *)
(** Equal passes exactly on what == finds equal, NotEqual on the others, if the value
    holds no map, slice or function. *)
Theorem C70_equal : forall v e, well_typed_any v -> well_typed_any e -> (forall x, v = Some x -> plain x) ->
  (assert_equal v e = Passed /\ assert_not_equal v e = Failed /\ equal_any v e) \/
  (assert_equal v e = Failed /\ assert_not_equal v e = Passed /\ ~ equal_any v e).
Proof.
  intros v e Wv We Pv. unfold assert_equal, assert_not_equal, kind_code, any_equal. destruct v as [v|], e as [e|]; cbn [option_map equal_any]; [|right; cbn [kinds_match]; destruct (kind_num (type_of v)); split; [done|]; split; [done|]; tauto|right; split; [done|]; split; [done|]; tauto|by left].
  destruct Wv as [Wv Nv], We as [We Ne]. destruct (proj1 (value_decided v) e Wv We (Pv v eq_refl) Nv Ne) as (b & E & Hb).
  rewrite value_equal_concrete, (held_self e Ne), E by done. cbn [fatal_unless fatal_if].
  assert (K : type_of v = type_of e -> kinds_match (Some (kind_num (type_of v))) (Some (kind_num (type_of e))) = true).
  { intros ->. cbn [kinds_match]. destruct (kind_num (type_of e)) as [x y]. by rewrite !Nat.eqb_refl. }
  destruct (kinds_match _ _) eqn:Ek.
  - destruct b; cbn [fatal_unless fatal_if]; [left; intuition auto|right]. split; [done|]. split; [done|]. intros X. by apply Hb in X.
  - right. split; [done|]. split; [done|]. intros X. apply equal_type, K in X. congruence.
Qed.
(** In any case the two are opposite, and panic together. *)
Theorem C70_opposite : forall v e,
  (assert_equal v e = Passed <-> assert_not_equal v e = Failed) /\ (assert_equal v e = Failed <-> assert_not_equal v e = Passed) /\
  (assert_equal v e = Panicked <-> assert_not_equal v e = Panicked).
Proof. intros v e. unfold assert_equal, assert_not_equal. by destruct (if kinds_match (kind_code v) (kind_code e) then any_equal v e else Ok false) as [[|]| |]. Qed.
(** A value without NaN is equal to itself. *)
Lemma no_nan_equal v : no_nan v -> equal_vals v v.
Proof.
  induction v as [| | |n e vs IH|n vs IH| |] using gval_rect'; intros N; inversion_clear N; try constructor; auto.
  - induction IH as [|v vs Hv _ IHs]; [constructor|]. match goal with H : Forall no_nan _ |- _ => inversion_clear H end. constructor; auto.
  - induction IH as [|v vs Hv _ IHs]; [constructor|]. match goal with H : Forall no_nan _ |- _ => inversion_clear H end. constructor; auto.
Qed.
Theorem C70_reflexive : forall v, well_typed v -> no_iface v -> plain v -> no_nan v -> assert_equal (Some v) (Some v) = Passed.
Proof.
  intros v W N P NN. destruct (C70_equal (Some v) (Some v) (conj W N) (conj W N)) as [[H _]|(_ & _ & H)]; [by intros x [= <-]|done|]. destruct H. by apply no_nan_equal.
Qed.
Lemma value_equal_held u w w' : well_typed u -> held w = held w' -> value_equal u w = value_equal u w'.
Proof.
  intros W H. assert (G : forall v, no_iface v -> value_equal v w = value_equal v w') by (intros v N; by rewrite !value_equal_concrete, H).
  destruct W; try (by apply G); cbn [value_equal].
  - by rewrite H.
  - by apply G.
Qed.
Definition symmetric v := forall u, well_typed v -> well_typed u -> value_equal v u = value_equal u v.
Lemma rows_symmetric vs : forall us, Forall symmetric vs -> Forall well_typed vs -> Forall well_typed us -> length vs = length us ->
  rows_equal vs us = rows_equal us vs.
Proof.
  induction vs as [|v vs IH]; intros [|u us] H Wv Wu L; try discriminate L; [done|].
  inversion_clear H. inversion_clear Wv. inversion_clear Wu. cbn [rows_equal]. injection L as L.
  match goal with S : symmetric v |- _ => rewrite (S u) by done end.
  destruct (value_equal u v) as [[]| |]; cbn [res_bind]; auto.
Qed.
Lemma gtype_eqb_sym a b : gtype_eqb a b = gtype_eqb b a.
Proof. apply eq_true_iff_eq. rewrite !gtype_eqb_true. split; congruence. Qed.
Lemma no_iface_type v u : no_iface v -> type_of v = type_of u -> no_iface u.
Proof. by destruct v, u. Qed.
Lemma value_symmetric v : symmetric v.
Proof.
  assert (G : forall v, no_iface v ->
    (forall u, well_typed v -> well_typed u -> no_iface u -> type_of v = type_of u -> concrete_equal v u = concrete_equal u v) -> symmetric v).
  { intros w N C u Wv Wu. assert (C' : forall u, well_typed u -> no_iface u -> concrete_equal w u = concrete_equal u w).
    { intros x Wx Nx. destruct (gtype_eqb (type_of w) (type_of x)) eqn:E.
      - apply C; try done. by apply gtype_eqb_true.
      - unfold concrete_equal. by rewrite (gtype_eqb_sym (type_of x)), E. }
    rewrite value_equal_concrete by done. destruct Wu as [| | | | |n|n u Wu Nu]; cbn [held].
    1-5: rewrite value_equal_concrete, (held_self w) by done; apply C'; [constructor; done|done].
    - cbn [value_equal]. by rewrite (held_self w).
    - cbn [value_equal]. rewrite value_equal_concrete, (held_self w) by done. by apply C'. }
  induction v as [k n p|k n x|k n a|n e vs IH|n vs IH|n|n v IH] using gval_rect'.
  - apply G; [done|]. intros u _ _ _ E. destruct u; try discriminate. unfold concrete_equal. rewrite <- E, (proj2 (gtype_eqb_true _ _) eq_refl). cbn [negb].
    f_equal. unfold str_eqb. apply bool_decide_ext. split; congruence.
  - apply G; [done|]. intros u _ _ _ E. destruct u as [|k' n' y| | | |]; try discriminate. unfold concrete_equal. rewrite <- E, (proj2 (gtype_eqb_true _ _) eq_refl). cbn [negb].
    destruct x, y; try done. by rewrite Z.eqb_sym.
  - apply G; [done|]. intros u _ _ _ E. destruct u as [| |k' n' b| | |]; try discriminate. unfold concrete_equal. rewrite <- E, (proj2 (gtype_eqb_true _ _) eq_refl). cbn [negb].
    injection E as <- <-. assert (X : nat_eqb_opt a b = nat_eqb_opt b a) by (destruct a, b; cbn; try done; apply Nat.eqb_sym). rewrite X. by destruct k.
  - apply G; [done|]. intros u Wv Wu _ E. destruct u as [| | |n' e' us| |]; try discriminate. unfold concrete_equal. rewrite <- E, (proj2 (gtype_eqb_true _ _) eq_refl). cbn [negb].
    injection E as <- L <-. inversion_clear Wv as [| | |? ? ? Wv'| | |]. inversion_clear Wu as [| | |? ? ? Wu'| | |].
    assert (X : rows_equal vs us = rows_equal us vs).
    { apply rows_symmetric; try done; [eapply Forall_impl; [exact Wv'|]|eapply Forall_impl; [exact Wu'|]]; by intros ? []. }
    destruct vs, us; try discriminate L; [done|exact X].
  - apply G; [done|]. intros u Wv Wu _ E. destruct u as [| | | |n' us|]; try discriminate. unfold concrete_equal. rewrite <- E, (proj2 (gtype_eqb_true _ _) eq_refl). cbn [negb].
    injection E as <- L. inversion_clear Wv as [| | | |? ? Wv'| |]. inversion_clear Wu as [| | | |? ? Wu'| |]. apply rows_symmetric; try done.
    by rewrite <- (map_length type_of vs), L, map_length.
  - intros u _ W. destruct W; cbn [value_equal held]; try done.
    match goal with N : no_iface ?w |- _ => by rewrite (value_equal_concrete w) by done end.
  - intros u Wv Wu. inversion_clear Wv as [| | | | | |? ? W N]. cbn [value_equal].
    rewrite (IH u W Wu). apply value_equal_held; [done|]. cbn [held]. by apply held_self.
Qed.
(** The order of the two does not matter, whatever they are. *)
Theorem C70_symmetric : forall v e, well_typed_any v -> well_typed_any e -> assert_equal v e = assert_equal e v /\ assert_not_equal v e = assert_not_equal e v.
Proof.
  intros v e Wv We. unfold assert_equal, assert_not_equal.
  assert (X : kinds_match (kind_code v) (kind_code e) = kinds_match (kind_code e) (kind_code v)).
  { destruct (kind_code v) as [[]|], (kind_code e) as [[]|]; try done. cbn. by rewrite (Nat.eqb_sym n), (Nat.eqb_sym n0). }
  rewrite X. assert (Y : any_equal v e = any_equal e v).
  { destruct v as [v|], e as [e|]; try done. destruct Wv, We. by apply value_symmetric. }
  by rewrite Y.
Qed.
Definition sound v := (forall u, well_typed v -> well_typed u -> no_iface v -> no_iface u -> concrete_equal v u = Ok true -> equal_vals v u) /\
  (forall u, well_typed v -> well_typed u -> type_of v = type_of u -> value_equal v u = Ok true -> equal_vals v u).
Lemma rows_sound vs : forall us, Forall sound vs -> Forall well_typed vs -> Forall well_typed us -> map type_of vs = map type_of us ->
  rows_equal vs us = Ok true -> Forall2 equal_vals vs us.
Proof.
  induction vs as [|v vs IH]; intros [|u us] H Wv Wu E R; try discriminate E; [constructor|].
  inversion_clear H as [|? ? [_ Hs] H2]. inversion_clear Wv. inversion_clear Wu. cbn [map] in E. injection E as E1 E2. cbn [rows_equal] in R.
  destruct (value_equal v u) as [[]| |] eqn:Ev; cbn [res_bind] in R; try discriminate R. constructor; [by apply Hs|by apply IH].
Qed.
Lemma elements_typed e vs us : length vs = length us -> Forall (fun v => well_typed v /\ type_of v = e) vs -> Forall (fun v => well_typed v /\ type_of v = e) us -> map type_of vs = map type_of us.
Proof.
  intros L Wv. revert us L. induction Wv as [|v vs [_ Ev] _ IH]; intros [|u us] El Wu; try discriminate El; [done|].
  inversion_clear Wu as [|? ? [_ Eu] Wu']. cbn [map]. f_equal; [congruence|]. apply IH; [by injection El|done].
Qed.
Lemma value_sound v : sound v.
Proof.
  assert (G : forall v, no_iface v ->
    (forall u, well_typed v -> well_typed u -> no_iface u -> type_of v = type_of u -> concrete_equal v u = Ok true -> equal_vals v u) -> sound v).
  { intros w N C. assert (C' : forall u, well_typed w -> well_typed u -> no_iface w -> no_iface u -> concrete_equal w u = Ok true -> equal_vals w u).
    { intros u Ww Wu _ Nu R. apply C; try done. unfold concrete_equal in R. destruct (gtype_eqb (type_of w) (type_of u)) eqn:E; [by apply gtype_eqb_true|discriminate R]. }
    split; [exact C'|]. intros u Ww Wu Et R. assert (Nu : no_iface u) by (destruct w, u; try done; discriminate Et).
    rewrite value_equal_concrete, (held_self u Nu) in R by done. by apply C'. }
  assert (T : forall a b, a = b -> gtype_eqb a b = true) by (intros; by apply gtype_eqb_true).
  induction v as [k n p|k n x|k n a|n e vs IH|n vs IH|n|n v IH] using gval_rect'.
  - apply G; [done|]. intros u _ _ _ E R. unfold concrete_equal in R. rewrite (T _ _ E) in R. cbn [negb] in R. destruct u; try discriminate. cbn [type_of] in E. injection E as <- <-.
    injection R as R. unfold str_eqb in R. apply bool_decide_eq_true in R as ->. constructor.
  - apply G; [done|]. intros u _ _ _ E R. unfold concrete_equal in R. rewrite (T _ _ E) in R. cbn [negb] in R. destruct u as [|k' n' y| | | |]; try discriminate. cbn [type_of] in E. injection E as <- <-.
    destruct x as [x|], y as [y|]; try discriminate R. injection R as R. apply Z.eqb_eq in R as ->. constructor.
  - apply G; [done|]. intros u _ _ _ E R. unfold concrete_equal in R. rewrite (T _ _ E) in R. cbn [negb] in R. destruct u as [| |k' n' b| | |]; try discriminate. cbn [type_of] in E. injection E as <- <-.
    assert (X : nat_eqb_opt a b = true) by (destruct k; try discriminate R; by injection R). apply nat_eqb_opt_true in X as ->. constructor.
  - apply G; [done|]. intros u Wv Wu _ E R. unfold concrete_equal in R. rewrite (T _ _ E) in R. cbn [negb] in R. destruct u as [| | |n' e' us| |]; try discriminate. cbn [type_of] in E. injection E as <- L <-.
    inversion_clear Wv as [| | |? ? ? Wv'| | |]. inversion_clear Wu as [| | |? ? ? Wu'| | |]. constructor. 
    destruct vs as [|v vs]; [destruct us; [constructor|discriminate L]|]. apply rows_sound; try done.
    + eapply Forall_impl; [exact Wv'|]. by intros ? [].
    + eapply Forall_impl; [exact Wu'|]. by intros ? [].
    + by eapply elements_typed.
  - apply G; [done|]. intros u Wv Wu _ E R. unfold concrete_equal in R. rewrite (T _ _ E) in R. cbn [negb] in R. destruct u as [| | | |n' us|]; try discriminate. cbn [type_of] in E. injection E as <- Et.
    inversion_clear Wv as [| | | |? ? Wv'| |]. inversion_clear Wu as [| | | |? ? Wu'| |]. constructor. by apply rows_sound.
  - split; [by intros ? ? ? []|]. intros u _ _ E R. destruct u as [| | | | |n' [u|]]; try discriminate E; injection E as <-; [discriminate R|constructor].
  - split; [by intros ? ? ? []|]. intros u Wv Wu E R. destruct u as [| | | | |n' o]; try discriminate E; injection E as <-. inversion_clear Wv as [| | | | | |? ? Wv' Nv].
    cbn [value_equal] in R. rewrite value_equal_iface in R by done. destruct o as [u|]; [|discriminate R]. inversion_clear Wu as [| | | | | |? ? Wu' Nu]. constructor. by apply (proj1 IH).
Qed.
(** Whatever the values: if Equal passes, == holds. *)
Theorem C70_sound : forall v e, well_typed_any v -> well_typed_any e -> assert_equal v e = Passed -> equal_any v e.
Proof.
  intros v e Wv We. unfold assert_equal. destruct (kinds_match _ _); [|discriminate]. destruct v as [v|], e as [e|]; try done. cbn [any_equal equal_any]. destruct Wv as [Wv Nv], We as [We Ne].
  rewrite value_equal_concrete, (held_self e Ne) by done. intros H. apply (proj1 (value_sound v)); try done. revert H. cbv iota beta. by destruct (concrete_equal v e) as [[]| |].
Qed.
Lemma plain_comparable v : plain v -> comparable (type_of v) = true.
Proof.
  induction v as [| |k n a|n e vs IH|n vs IH| |] using gval_rect'; intros P; inversion_clear P as [| |? ? ? K|? ? ? Ce Pv|? ? Pv| |]; try done.
  - by destruct K as [->|[->| ->]].
  - cbn [type_of comparable]. apply forallb_forall. intros t Ht. apply in_map_iff in Ht as (x & <- & Hx).
    rewrite Forall_forall in IH, Pv. apply elem_of_list_In in Hx. by apply IH, Pv.
Qed.
Definition passes_plain v := (forall u, well_typed v -> well_typed u -> no_iface v -> no_iface u -> concrete_equal v u = Ok true -> plain v) /\
  (forall u, well_typed v -> well_typed u -> type_of v = type_of u -> value_equal v u = Ok true -> plain v).
Lemma rows_plain vs : forall us, Forall passes_plain vs -> Forall well_typed vs -> Forall well_typed us -> map type_of vs = map type_of us ->
  rows_equal vs us = Ok true -> Forall plain vs.
Proof.
  induction vs as [|v vs IH]; intros [|u us] H Wv Wu E R; try discriminate E; [constructor|].
  inversion_clear H as [|? ? [_ Hs] H2]. inversion_clear Wv. inversion_clear Wu. cbn [map] in E. injection E as E1 E2. cbn [rows_equal] in R.
  destruct (value_equal v u) as [[]| |] eqn:Ev; cbn [res_bind] in R; try discriminate R. constructor; [by apply (Hs u)|by apply (IH us)].
Qed.
Lemma value_plain v : passes_plain v.
Proof.
  assert (G : forall v, no_iface v ->
    (forall u, well_typed v -> well_typed u -> no_iface u -> type_of v = type_of u -> concrete_equal v u = Ok true -> plain v) -> passes_plain v).
  { intros w N C. assert (C' : forall u, well_typed w -> well_typed u -> no_iface w -> no_iface u -> concrete_equal w u = Ok true -> plain w).
    { intros u Ww Wu _ Nu R. apply (C u); try done. unfold concrete_equal in R. destruct (gtype_eqb (type_of w) (type_of u)) eqn:E; [by apply gtype_eqb_true|discriminate R]. }
    split; [exact C'|]. intros u Ww Wu Et R. assert (Nu : no_iface u) by (destruct w, u; try done; discriminate Et).
    rewrite value_equal_concrete, (held_self u Nu) in R by done. by apply (C' u). }
  assert (T : forall a b, a = b -> gtype_eqb a b = true) by (intros; by apply gtype_eqb_true).
  induction v as [k n p|k n x|k n a|n e vs IH|n vs IH|n|n v IH] using gval_rect'.
  - apply G; [done|]. intros. constructor.
  - apply G; [done|]. intros. constructor.
  - apply G; [done|]. intros u _ _ _ E R. unfold concrete_equal in R. rewrite (T _ _ E) in R. cbn [negb] in R. constructor. destruct k; try discriminate R; auto.
  - apply G; [done|]. intros u Wv Wu _ E R. unfold concrete_equal in R. rewrite (T _ _ E) in R. cbn [negb] in R. destruct u as [| | |n' e' us| |]; try discriminate. cbn [type_of] in E. injection E as <- L <-.
    inversion_clear Wv as [| | |? ? ? Wv'| | |]. inversion_clear Wu as [| | |? ? ? Wu'| | |].
    destruct vs as [|v vs].
    + constructor; [|constructor]. by destruct (comparable e).
    + assert (P : Forall plain (v :: vs)).
      { apply (rows_plain (v :: vs) us); try done; [eapply Forall_impl; [exact Wv'|]|eapply Forall_impl; [exact Wu'|]|by eapply elements_typed]; by intros ? []. }
      constructor; [|done]. inversion_clear P as [|? ? Pv _]. inversion_clear Wv' as [|? ? [_ <-] _]. by apply plain_comparable.
  - apply G; [done|]. intros u Wv Wu _ E R. unfold concrete_equal in R. rewrite (T _ _ E) in R. cbn [negb] in R. destruct u as [| | | |n' us|]; try discriminate. cbn [type_of] in E. injection E as <- Et.
    inversion_clear Wv as [| | | |? ? Wv'| |]. inversion_clear Wu as [| | | |? ? Wu'| |]. constructor. by apply (rows_plain vs us).
  - split; [by intros ? ? ? []|]. intros. constructor.
  - split; [by intros ? ? ? []|]. intros u Wv Wu E R. destruct u as [| | | | |n' o]; try discriminate E; injection E as <-. inversion_clear Wv as [| | | | | |? ? Wv' Nv].
    cbn [value_equal] in R. rewrite value_equal_iface in R by done. destruct o as [u|]; [|discriminate R]. inversion_clear Wu as [| | | | | |? ? Wu' Nu]. constructor. by apply (proj1 IH u).
Qed.
(** Exactly when Equal passes: == holds and there is no map, slice or function. *)
Theorem C70_exact : forall v e, well_typed_any v -> well_typed_any e ->
  (assert_equal v e = Passed <-> equal_any v e /\ forall x, v = Some x -> plain x).
Proof.
  intros v e Wv We. split.
  - intros H. split; [by apply C70_sound|]. intros x ->. destruct e as [e|]; [|unfold assert_equal in H; by destruct (kinds_match _ _)].
    unfold assert_equal in H. destruct (kinds_match _ _); [|discriminate H]. cbn [any_equal] in H. destruct Wv as [Wv Nv], We as [We Ne].
    rewrite value_equal_concrete, (held_self e Ne) in H by done. apply (proj1 (value_plain x) e); try done. by destruct (concrete_equal x e) as [[]| |].
  - intros [E P]. destruct (C70_equal v e Wv We P) as [[H _]|(_ & _ & H)]; done.
Qed.
Lemma equal_vals_trans a : forall b c, equal_vals a b -> equal_vals b c -> equal_vals a c.
Proof.
  assert (L : forall vs us ws, Forall (fun a => forall b c, equal_vals a b -> equal_vals b c -> equal_vals a c) vs -> Forall2 equal_vals vs us -> Forall2 equal_vals us ws -> Forall2 equal_vals vs ws).
  { intros vs us ws H F. revert ws. induction F as [|v u vs us E F IH]; intros ws F'; inversion_clear F'; [constructor|]. inversion_clear H. constructor; [by eauto|by apply IH]. }
  induction a as [| | |n e vs IH|n vs IH|n|n v IH] using gval_rect'; intros b c E F; inversion E; subst; try done; inversion F; subst; constructor; try (by eapply L); by eapply IH.
Qed.
(** So it is an equivalence on the values it passes on. *)
Theorem C70_transitive : forall a b c, well_typed_any a -> well_typed_any b -> well_typed_any c ->
  assert_equal a b = Passed -> assert_equal b c = Passed -> assert_equal a c = Passed.
Proof.
  intros a b c Wa Wb Wc H1 H2. apply C70_exact in H1 as [E1 P]; try done. apply C70_exact in H2 as [E2 _]; try done. apply C70_exact; try done. split; [|done].
  destruct a as [a|], b as [b|], c as [c|]; try done. cbn [equal_any] in *. by eapply equal_vals_trans.
Qed.
(** An array that holds a string and one that holds a slice. *)
Example ex_C70_exact :
  let v := VArray 0 (TIface 0) [VIface 0 (Some (VBasic 24 0 $"x"))] in let w := VArray 0 (TIface 0) [VIface 0 (Some (VRef RSlice 0 None))] in
  well_typed_any (Some v) /\ well_typed_any (Some w) /\ assert_equal (Some v) (Some v) = Passed /\
  assert_equal (Some v) (Some w) = Failed /\ assert_equal (Some w) (Some v) = Failed /\ assert_equal (Some w) (Some w) = Panicked.
Proof. cbn zeta. do 2 (split; [split; [|done]; repeat (constructor; auto)|]). vm_compute. by repeat split. Qed.
(** Maps, slices and functions: comparing two of the same type panics, even a value
    with itself and nil with nil; a typed nil is not equal to nil; NaN is not equal
    to itself. *)
Theorem C70_equal_refuted : forall k n a b, k = RMap \/ k = RSlice \/ k = RFunc ->
  assert_equal (Some (VRef k n a)) (Some (VRef k n b)) = Panicked /\ assert_equal (Some (VRef k n None)) None = Failed /\
  forall j m, assert_equal (Some (VFloat j m None)) (Some (VFloat j m None)) = Failed.
Proof.
  intros k n a b K. split; [|split].
  - unfold assert_equal. destruct K as [->|[->| ->]]; cbn [option_map kind_code kind_num type_of kinds_match Nat.eqb andb any_equal value_equal held gtype_eqb ref_kind_eqb]; by rewrite Nat.eqb_refl.
  - by destruct K as [->|[->| ->]].
  - intros j m. unfold assert_equal. cbn [option_map kind_code kind_num type_of kinds_match]. rewrite !Nat.eqb_refl. cbn [andb any_equal value_equal held]. by destruct (negb _).
Qed.
(** Structs are compared from left to right: a slice in a struct panics only if
    nothing before it differs (== would panic in both cases). *)
Example ex_C70_struct :
  let s x := VStruct 0 [VBasic 2 0 x; VRef RSlice 0 None] in
  assert_equal (Some (s $"a")) (Some (s $"b")) = Failed /\ assert_equal (Some (s $"a")) (Some (s $"a")) = Panicked.
Proof. vm_compute. by split. Qed.
(** Nil passes exactly on nil and on nil pointers, maps, channels and slices; it
    panics on arrays; a nil function is not found nil. *)
Theorem C70_nil : forall v,
  (assert_nil v = Passed <-> v = None \/ exists k n, v = Some (VRef k n None) /\ (k = RPtr \/ k = RMap \/ k = RChan \/ k = RSlice)) /\
  (assert_nil v = Panicked <-> exists n e vs, v = Some (VArray n e vs)) /\
  (assert_not_nil v = Passed <-> assert_nil v = Failed) /\ (assert_not_nil v = Failed <-> assert_nil v = Passed) /\ (assert_not_nil v = Panicked <-> assert_nil v = Panicked).
Proof.
  intros v. unfold assert_nil, assert_not_nil. split; [|split; [|by destruct (is_nil v) as [[|]| |]]].
  - split.
    + destruct v as [[| |k n a| | |]|]; cbn [is_nil fatal_unless]; try discriminate; [|by left]. intros H. right. exists k, n. destruct k, a; try discriminate H; (split; [done|]); tauto.
    + intros [->|(k & n & -> & K)]; [done|]. by destruct K as [->|[->|[->| ->]]].
  - split.
    + destruct v as [[| |k n a|n e vs| |]|]; cbn [is_nil fatal_unless]; try discriminate; [by destruct k, a|]. intros _. by exists n, e, vs.
    + by intros (n & e & vs & ->).
Qed.
Theorem C70_nil_refuted : forall n, assert_nil (Some (VRef RFunc n None)) = Failed.
Proof. done. Qed.
(** Error and NoError look at the interface only: a nil pointer in an error is an error. *)
Theorem C70_error : forall err, (assert_error err = Passed <-> err <> None) /\ (assert_no_error err = Passed <-> err = None) /\
  assert_error err <> Panicked /\ assert_no_error err <> Panicked.
Proof. by intros [v|]. Qed.
(** Panic and NoPanic call the function once, keep what it did, and tell whether it
    panicked; if it ends the goroutine they do not return. *)
Theorem C70_panic : forall W (fn : W -> W * ending) w,
  fst (assert_panic fn w) = fst (fn w) /\ fst (assert_no_panic fn w) = fst (fn w) /\
  (snd (assert_panic fn w) = Returned <-> snd (fn w) = Panics) /\ (snd (assert_panic fn w) = FailedTest <-> snd (fn w) = Returns) /\
  (snd (assert_no_panic fn w) = Returned <-> snd (fn w) = Returns) /\ (snd (assert_no_panic fn w) = FailedTest <-> snd (fn w) = Panics) /\
  (snd (assert_panic fn w) = GoneExit <-> snd (fn w) = Exits) /\ (snd (assert_no_panic fn w) = GoneExit <-> snd (fn w) = Exits).
Proof. intros W fn w. unfold assert_panic, assert_no_panic, call. by destruct (fn w) as [w' []]. Qed.
(** An error value with a struct, an array and an interface in it. *)
Example ex_C70 :
  let v := VStruct 1 [VBasic 24 0 $"x"; VArray 0 (TIface 0) [VIface 0 None; VIface 0 (Some (VRef RPtr 3 (Some 7)))]; VFloat 1 0 (Some 2%Z)] in
  well_typed_any (Some v) /\ plain v /\ no_nan v /\ assert_equal (Some v) (Some v) = Passed.
Proof. cbn zeta. split; [|split; [|split]]; [split; [|done]| | |vm_compute; reflexivity]; repeat (constructor; auto). Qed.
