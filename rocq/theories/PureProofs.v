(** Lemmas about charset, helper, kind, scope kinds. *)
From Verif Require Export SpecPure.

(** ** charset *)
Lemma cset_insert_elem {T} `{EqDecision T} (l : list T) c x : x ∈ cset_insert l c <-> x ∈ l \/ x = c.
Proof.
  unfold cset_insert. case_bool_decide as D; [naive_solver|].
  rewrite elem_of_app, elem_of_list_singleton. done.
Qed.
Lemma cset_fold {T} `{EqDecision T} (xs l : list T) x : x ∈ fold_left cset_insert xs l <-> x ∈ l \/ x ∈ xs.
Proof.
  revert l. induction xs as [|y xs IH]; intros l; simpl; [rewrite elem_of_nil; tauto|].
  rewrite IH, cset_insert_elem, elem_of_cons. tauto.
Qed.
Lemma contain_new {T} `{EqDecision T} (xs : list T) x : contain (cset_new xs) x = bool_decide (x ∈ xs).
Proof. simpl. apply bool_decide_ext. rewrite cset_fold, elem_of_nil. tauto. Qed.
Lemma cset_fold_slice {T} `{EqDecision T} (xss : list (list T)) l x :
  x ∈ fold_left (fun set cs => fold_left cset_insert cs set) xss l <-> x ∈ l \/ x ∈ concat xss.
Proof.
  revert l. induction xss as [|y xs IH]; intros l; simpl; [rewrite elem_of_nil; tauto|].
  rewrite IH, cset_fold, elem_of_app. tauto.
Qed.
Lemma contain_new_slice {T} `{EqDecision T} (xss : list (list T)) x :
  contain (cset_new_slice xss) x = bool_decide (x ∈ concat xss).
Proof. simpl. apply bool_decide_ext. rewrite cset_fold_slice, elem_of_nil. tauto. Qed.

(** ** range over a string *)
Lemma lead_ascii c : ascii_byte c -> lead c = None.
Proof. unfold ascii_byte, lead. intros H. destruct (N.ltb_spec (N_of_ascii c) 194); [done|lia]. Qed.
Lemma rune_width_ascii c r : ascii_byte c -> rune_width (c :: r) = 1.
Proof. intros H. simpl. by rewrite lead_ascii. Qed.
Lemma rune_width_pos c r : 1 <= rune_width (c :: r).
Proof.
  simpl. destruct (lead c) as [[[sz lo] hi]|]; [|done]. destruct r as [|c1 r1]; [done|].
  destruct (negb _); [done|]. destruct (Nat.eqb sz 2); [lia|]. destruct r1 as [|c2 r2]; [done|].
  destruct (negb _); [done|]. destruct (Nat.eqb sz 3); [lia|]. destruct r2; [done|]. destruct (is_cont _); lia.
Qed.
Lemma range_bytes_ascii s : Forall ascii_byte s -> range_bytes s = s.
Proof.
  unfold range_bytes. induction s as [|c r IH]; intros F; [done|].
  apply Forall_cons in F as [F1 F2]. cbn [range_bytes_from]. rewrite rune_width_ascii by done. f_equal. by apply IH.
Qed.
Lemma forallb_range (P : ascii -> bool) s : (forall c, P c = true -> ascii_byte c) ->
  forallb P (range_bytes s) = forallb P s.
Proof.
  intros A. unfold range_bytes. induction s as [|c r IH]; [done|].
  cbn [range_bytes_from forallb]. destruct (P c) eqn:E; [|done]. rewrite rune_width_ascii by auto. exact IH.
Qed.
Lemma range_pos_from_ascii s : Forall ascii_byte s -> forall pos, range_pos_from pos 0 s = seq pos (length s).
Proof.
  induction s as [|c r IH]; intros F pos; [done|].
  apply Forall_cons in F as [F1 F2]. cbn [range_pos_from length seq]. rewrite rune_width_ascii by done. f_equal. by apply IH.
Qed.
Lemma range_pos_from_lt s : forall pos skip i, i ∈ range_pos_from pos skip s -> pos <= i < pos + length s.
Proof.
  induction s as [|c r IH]; intros pos skip i H; [by apply elem_of_nil in H|].
  cbn [range_pos_from] in H. cbn [length]. destruct skip as [|k].
  - apply elem_of_cons in H as [->|H]; [lia|]. apply IH in H. lia.
  - apply IH in H. lia.
Qed.

(** ** Byte classes *)
Lemma all_ascii (P : ascii -> Prop) : (forall n, n < 256 -> P (ascii_of_nat n)) -> forall c, P c.
Proof. intros H c. rewrite <- (ascii_nat_embedding c). apply H. apply nat_ascii_bounded. Qed.
Lemma elem_of_dec_eq {A} `{EqDecision A} (l l' : list A) x : (forall y, y ∈ l <-> y ∈ l') -> bool_decide (x ∈ l) = bool_decide (x ∈ l').
Proof. intros H. apply bool_decide_ext. apply H. Qed.
(** Facts about literal texts and bytes are computed. *)
Lemma lits {A} (L : list A) (chk : A -> bool) x : forallb chk L = true -> x ∈ L -> chk x = true.
Proof. intros F H. rewrite forallb_forall in F. apply F. by apply elem_of_list_In. Qed.
Lemma incl_lits {A} `{EqDecision A} (l l' : list A) : forallb (fun x => bool_decide (x ∈ l')) l = true -> forall x, x ∈ l -> x ∈ l'.
Proof. intros F x H. apply (lits _ _ x) in F; [|exact H]. by apply bool_decide_eq_true in F. Qed.
Lemma same_lits {A} `{EqDecision A} (l l' : list A) x : forallb (fun x => bool_decide (x ∈ l')) l = true ->
  forallb (fun x => bool_decide (x ∈ l)) l' = true -> bool_decide (x ∈ l) = bool_decide (x ∈ l').
Proof. intros F G. apply bool_decide_ext. split; by apply incl_lits. Qed.
Lemma contain_number c : contain NumberCharset c = bool_decide (c ∈ digits).
Proof. unfold NumberCharset. rewrite contain_new. apply same_lits; vm_compute; reflexivity. Qed.
Lemma contain_symbol c : contain GolangSymbol c = bool_decide (c ∈ operators).
Proof. unfold GolangSymbol. rewrite contain_new_slice. apply same_lits; vm_compute; reflexivity. Qed.
Lemma digits_ascii c : c ∈ digits -> ascii_byte c.
Proof. intros H. apply N.ltb_lt. apply (lits _ (fun c => (N_of_ascii c <? 128)%N) c) in H; [exact H|vm_compute; reflexivity]. Qed.
Lemma operators_ascii c : c ∈ operators -> ascii_byte c.
Proof. intros H. apply N.ltb_lt. apply (lits _ (fun c => (N_of_ascii c <? 128)%N) c) in H; [exact H|vm_compute; reflexivity]. Qed.

Lemma all_in (P : ascii -> bool) (l : list ascii) s : (forall c, P c = bool_decide (c ∈ l)) -> (forall c, c ∈ l -> ascii_byte c) ->
  forallb P (range_bytes s) = true <-> forall c, c ∈ s -> c ∈ l.
Proof.
  intros E A. rewrite forallb_range; [|intros c; rewrite E, bool_decide_eq_true; apply A].
  rewrite forallb_forall. split; intros H c Hc.
  - apply elem_of_list_In in Hc. apply H in Hc. rewrite E in Hc. by apply bool_decide_eq_true in Hc.
  - rewrite E. apply bool_decide_eq_true, H. by apply elem_of_list_In.
Qed.
Lemma all_digits s : forallb (contain NumberCharset) (range_bytes s) = true <-> forall c, c ∈ s -> c ∈ digits.
Proof. apply all_in; [exact contain_number|exact digits_ascii]. Qed.
Lemma all_operators s : forallb (contain GolangSymbol) (range_bytes s) = true <-> forall c, c ∈ s -> c ∈ operators.
Proof. apply all_in; [exact contain_symbol|exact operators_ascii]. Qed.

(** ** HasPrefix, HasSuffix *)
Lemma prefix_bytes (p s : str) : p `prefix_of` s <-> length p <= length s /\ forall i, i < length p -> s !! i = p !! i.
Proof.
  split.
  - intros [k ->]. rewrite app_length. split; [lia|]. intros i Hi. by rewrite lookup_app_l.
  - revert s. induction p as [|c p IH]; intros s [L H]; [apply prefix_nil|].
    destruct s as [|d s]; [simpl in L; lia|]. pose proof (H 0 ltac:(simpl; lia)) as E. injection E as ->.
    apply prefix_cons, IH. split; [simpl in L; lia|]. intros i Hi. apply (H (S i)). simpl. lia.
Qed.
Lemma has_prefix_of s p : p `prefix_of` s -> has_prefix s p = true.
Proof.
  intros H. apply prefix_bytes in H as [L H]. unfold has_prefix.
  destruct (Nat.ltb_spec (length s) (length p)); [lia|].
  apply forallb_forall. intros i Hi. apply elem_of_list_In in Hi. apply bool_decide_eq_true. apply H.
  unfold range_pos in Hi. apply range_pos_from_lt in Hi. lia.
Qed.
Lemma has_prefix_spec s p : Forall ascii_byte p -> (has_prefix s p = true <-> p `prefix_of` s).
Proof.
  intros A. split; [|apply has_prefix_of]. unfold has_prefix, range_pos. rewrite (range_pos_from_ascii p A).
  destruct (Nat.ltb_spec (length s) (length p)) as [L|L]; [done|]. rewrite forallb_forall. intros H.
  apply prefix_bytes. split; [done|]. intros i Hi. specialize (H i). rewrite <- elem_of_list_In, elem_of_seq in H.
  specialize (H ltac:(lia)). by apply bool_decide_eq_true in H.
Qed.
Lemma has_suffix_spec s p : has_suffix s p = true <-> p `suffix_of` s.
Proof.
  unfold has_suffix. destruct (Nat.ltb_spec (length s) (length p)) as [L|L].
  - split; [done|]. intros H. apply suffix_length in H. lia.
  - rewrite forallb_forall. split.
    + intros H. exists (take (length s - length p) s). rewrite <- (take_drop (length s - length p) s) at 1. f_equal.
      apply list_eq_same_length with (n := length p); [done|rewrite drop_length; lia|].
      intros i x y Hi Hx Hy. specialize (H i). rewrite <- elem_of_list_In, elem_of_seq, drop_length in H.
      specialize (H ltac:(lia)). apply bool_decide_eq_true in H. congruence.
    + intros [k ->] i Hi. apply elem_of_list_In, elem_of_seq in Hi. apply bool_decide_eq_true.
      rewrite app_length. replace (length k + length p - length p) with (length k) by lia. by rewrite drop_app.
Qed.

(** ** kind.New *)
Lemma switch_find_some s ks k : switch_find s ks = Some k -> k ∈ ks /\ s = k_text k.
Proof.
  induction ks as [|k' ks IH]; [done|]. simpl. unfold str_eqb. case_bool_decide as D.
  - intros [= ->]. split; [left|done].
  - intros H. destruct (IH H) as [? ?]. split; [by right|done].
Qed.
Lemma switch_find_none s ks : switch_find s ks = None -> forall k, k ∈ ks -> s <> k_text k.
Proof.
  induction ks as [|k' ks IH]; intros H k Hk; [by apply elem_of_nil in Hk|].
  simpl in H. unfold str_eqb in H. case_bool_decide as D; [done|].
  apply elem_of_cons in Hk as [->|Hk]; [done|]. by apply IH.
Qed.
Lemma reserved_switch : reserved = map (fun k => (k_text k, k)) new_switch.
Proof. reflexivity. Qed.
Lemma reserved_elem s k : (s, k) ∈ reserved <-> k ∈ new_switch /\ s = k_text k.
Proof.
  rewrite reserved_switch, elem_of_list_fmap. split.
  - intros (k' & [= -> ->] & H). done.
  - intros [H ->]. by exists k.
Qed.
Lemma switch_iff s k : switch_find s new_switch = Some k <-> (s, k) ∈ reserved.
Proof.
  rewrite reserved_elem. split; [apply switch_find_some|].
  intros [H ->]. unfold new_switch in H. repeat (apply elem_of_cons in H as [->|H]; [vm_compute; reflexivity|]).
  by apply elem_of_nil in H.
Qed.
Lemma reserved_none s : switch_find s new_switch = None <-> ~ is_reserved s.
Proof.
  unfold is_reserved. setoid_rewrite <- switch_iff. destruct (switch_find s new_switch) as [k|]; [|naive_solver].
  split; [done|]. intros H. exfalso. apply H. by eexists.
Qed.


Definition lit_reserved (s : str) : bool := match switch_find s new_switch with Some _ => true | None => false end.
Lemma lit_reserved_spec s : lit_reserved s = true <-> is_reserved s.
Proof.
  unfold lit_reserved. pose proof (reserved_none s) as R. destruct (switch_find s new_switch) as [k|] eqn:E.
  - split; [|done]. intros _. exists k. by apply switch_iff.
  - split; [done|]. intros H. by apply R in H.
Qed.

Lemma other_keyword_spec s : ~ is_reserved s -> (contain GolangKeywords s = true <-> s ∈ other_keywords).
Proof.
  intros NR. unfold GolangKeywords. rewrite contain_new, bool_decide_eq_true. split.
  - intros H. apply (lits _ (fun s => bool_decide (s ∈ other_keywords) || lit_reserved s)) in H; [|vm_compute; reflexivity].
    apply orb_true_iff in H as [H|H]; [by apply bool_decide_eq_true in H|]. by apply lit_reserved_spec in H.
  - intros H. apply (lits _ (fun s => contain GolangKeywords s)) in H; [|vm_compute; reflexivity].
    unfold GolangKeywords in H. by rewrite contain_new, bool_decide_eq_true in H.
Qed.
Lemma basic_spec s : contain GolangBasicType s = true <-> s ∈ basic_types.
Proof. unfold GolangBasicType. rewrite contain_new, bool_decide_eq_true. done. Qed.
Lemma head_prefix (s : str) c : [c] `prefix_of` s <-> head s = Some c.
Proof.
  destruct s as [|d s]; simpl.
  - split; [intros H; apply prefix_length in H; simpl in H; lia|done].
  - split; [intros [k E]; injection E as -> ->; done|intros [= ->]; by exists s].
Qed.
Lemma quote_spec s : has_prefix s [c_dq] || has_prefix s [c_bq] = true <-> is_quoted s.
Proof. rewrite orb_true_iff, !has_prefix_spec by (repeat constructor; done). unfold is_quoted. by rewrite !head_prefix. Qed.
Lemma separator_spec c r : ~ is_reserved (c :: r) ->
  (Nat.eqb (length (c :: r)) 1 && contain SeparatorCharset c = true <-> c :: r = [c_cr]).
Proof.
  intros NR. rewrite andb_true_iff, Nat.eqb_eq. unfold SeparatorCharset. rewrite contain_new, bool_decide_eq_true. split.
  - intros [L H]. destruct r; [|simpl in L; lia].
    apply (lits _ (fun c => bool_decide (c = c_cr) || lit_reserved [c])) in H; [|vm_compute; reflexivity].
    apply orb_true_iff in H as [H|H]; [apply bool_decide_eq_true in H; by subst|]. by apply lit_reserved_spec in H.
  - intros [= -> ->]. split; [done|]. apply (bool_decide_eq_true (c_cr ∈ _)). vm_compute. reflexivity.
Qed.

(** A byte no reserved text starts with. *)
Definition res_head (c : ascii) : bool := existsb (fun k => bool_decide (head (k_text k) = Some c)) new_switch.
Lemma not_reserved_head c r : res_head c = false -> ~ is_reserved (c :: r).
Proof.
  intros H [k E]. apply reserved_elem in E as [Hk E]. assert (res_head c = true); [|congruence].
  unfold res_head. apply existsb_exists. exists k. split; [by apply elem_of_list_In|]. apply bool_decide_eq_true. by rewrite <- E.
Qed.
(** First bytes of the literal lists. *)
Definition no_digit (c : ascii) : bool := negb (bool_decide (c ∈ digits)).
Lemma quote_no_digit : forallb no_digit [c_dq; c_bq] = true. Proof. vm_compute. reflexivity. Qed.
Definition op_ok (c : ascii) : bool := negb (bool_decide (c ∈ digits)) && negb (bool_decide (c = c_dq))
              && negb (bool_decide (c = c_bq)) && negb (bool_decide (c = c_cr)).
Lemma op_ok_all : forallb op_ok operators = true. Proof. vm_compute. reflexivity. Qed.
Definition kw_ok (s : str) : bool :=
  match s with
  | [] => false
  | c :: _ => negb (bool_decide (c ∈ digits)) && negb (bool_decide (c ∈ operators)) && negb (bool_decide (c = c_dq))
              && negb (bool_decide (c = c_bq)) && negb (bool_decide (c = c_cr)) && negb (lit_reserved s)
  end.
Lemma kw_facts s : s ∈ other_keywords \/ s ∈ basic_types -> kw_ok s = true.
Proof. intros [H|H]; (eapply lits; [|exact H]; vm_compute; reflexivity). Qed.

Lemma class_kind_new s k : kind_new s = k -> class s k.
Proof.
  intros <-. destruct s as [|c r]; [by apply cl_none|]. unfold kind_new.
  destruct (switch_find (c :: r) new_switch) as [k|] eqn:S.
  { apply cl_reserved. by apply switch_iff. }
  apply reserved_none in S.
  destruct (forallb (contain NumberCharset) (range_bytes (c :: r))) eqn:D.
  { apply cl_number. split; [done|]. by apply all_digits. }
  destruct (Nat.eqb (length (c :: r)) 1 && contain SeparatorCharset c) eqn:P.
  { apply cl_separator. by apply separator_spec. }
  destruct (has_prefix (c :: r) [c_dq] || has_prefix (c :: r) [c_bq]) eqn:Q.
  { apply cl_string. by apply quote_spec. }
  destruct (contain GolangKeywords (c :: r)) eqn:K.
  { apply cl_keyword. by apply other_keyword_spec. }
  destruct (contain GolangBasicType (c :: r)) eqn:B.
  { apply cl_basic. by apply basic_spec. }
  destruct (forallb (contain GolangSymbol) (range_bytes (c :: r))) eqn:O.
  { apply cl_symbol; [|done]. split; [done|]. by apply all_operators. }
  apply cl_raw; [done|done|..].
  - intros [_ H]. apply all_digits in H. congruence.
  - intros H. apply separator_spec in H; [congruence|done].
  - intros H. apply quote_spec in H. congruence.
  - intros H. apply other_keyword_spec in H; [congruence|done].
  - intros H. apply basic_spec in H. congruence.
  - intros [_ H]. apply all_operators in H. congruence.
Qed.

Lemma not_digits c r : c ∉ digits -> forallb (contain NumberCharset) (range_bytes (c :: r)) = false.
Proof. intros H. apply not_true_is_false. rewrite all_digits. intros G. apply H, G. by left. Qed.
Lemma not_operators c r : c ∉ operators -> forallb (contain GolangSymbol) (range_bytes (c :: r)) = false.
Proof. intros H. apply not_true_is_false. rewrite all_operators. intros G. apply H, G. by left. Qed.
Ltac byte_fact := apply (bool_decide_eq_false _); vm_compute; reflexivity.

Lemma kind_new_class s k : class s k -> kind_new s = k.
Proof.
  destruct 1 as [->|k H|[NE D]| -> |Q|K|B|[NE O] NR|NE NR ND NC NQ NK NB NO].
  - done.
  - pose proof H as H'. apply switch_iff in H. destruct s as [|c r].
    + apply reserved_elem in H' as [Hk E]. apply (lits _ (fun k => negb (bool_decide ([] = k_text k)))) in Hk; [|vm_compute; reflexivity].
      rewrite <- E in Hk. done.
    + unfold kind_new. by rewrite H.
  - destruct s as [|c r]; [done|]. unfold kind_new.
    assert (Dc : c ∈ digits) by (apply D; by left).
    assert (NR : ~ is_reserved (c :: r)).
    { apply not_reserved_head. apply negb_true_iff. apply (lits digits (fun c => negb (res_head c))); [vm_compute; reflexivity|done]. }
    rewrite (proj2 (reserved_none _) NR). by rewrite (proj2 (all_digits _) D).
  - vm_compute. reflexivity.
  - destruct s as [|c r]; [by destruct Q|]. unfold kind_new.
    assert (Hc : c ∈ [c_dq; c_bq]) by (destruct Q as [[= ->]|[= ->]]; rewrite !elem_of_cons; tauto).
    assert (NR : ~ is_reserved (c :: r)).
    { apply not_reserved_head. apply negb_true_iff. apply (lits [c_dq; c_bq] (fun c => negb (res_head c))); [vm_compute; reflexivity|done]. }
    rewrite (proj2 (reserved_none _) NR). rewrite not_digits.
    2:{ intros I. pose proof (lits _ _ c quote_no_digit Hc) as G. unfold no_digit in G. rewrite bool_decide_eq_true_2 in G by exact I. discriminate. }
    destruct (Nat.eqb (length (c :: r)) 1 && contain SeparatorCharset c) eqn:P.
    { apply separator_spec in P; [|done]. injection P as -> ->. destruct Q; discriminate. }
    apply quote_spec in Q. by rewrite Q.
  - pose proof (kw_facts s (or_introl K)) as G. destruct s as [|c r]; [done|]. unfold kind_new. unfold kw_ok in G.
    rewrite !andb_true_iff, !negb_true_iff, !bool_decide_eq_false in G. destruct G as [[[[[G1 G2] G3] G4] G5] G6].
    assert (NR : ~ is_reserved (c :: r)) by (rewrite <- lit_reserved_spec; congruence).
    rewrite (proj2 (reserved_none _) NR). rewrite not_digits by done.
    destruct (Nat.eqb (length (c :: r)) 1 && contain SeparatorCharset c) eqn:P.
    { apply separator_spec in P; [|done]. by injection P. }
    destruct (has_prefix (c :: r) [c_dq] || has_prefix (c :: r) [c_bq]) eqn:Q.
    { apply quote_spec in Q. destruct Q as [[= ?]|[= ?]]; done. }
    by rewrite (proj2 (other_keyword_spec _ NR) K).
  - pose proof (kw_facts s (or_intror B)) as G. destruct s as [|c r]; [done|]. unfold kind_new. unfold kw_ok in G.
    rewrite !andb_true_iff, !negb_true_iff, !bool_decide_eq_false in G. destruct G as [[[[[G1 G2] G3] G4] G5] G6].
    assert (NR : ~ is_reserved (c :: r)) by (rewrite <- lit_reserved_spec; congruence).
    rewrite (proj2 (reserved_none _) NR). rewrite not_digits by done.
    destruct (Nat.eqb (length (c :: r)) 1 && contain SeparatorCharset c) eqn:P.
    { apply separator_spec in P; [|done]. by injection P. }
    destruct (has_prefix (c :: r) [c_dq] || has_prefix (c :: r) [c_bq]) eqn:Q.
    { apply quote_spec in Q. destruct Q as [[= ?]|[= ?]]; done. }
    destruct (contain GolangKeywords (c :: r)) eqn:K.
    { apply other_keyword_spec in K; [|done]. exfalso.
      apply (lits _ (fun s => negb (bool_decide (s ∈ other_keywords)))) in B; [|vm_compute; reflexivity].
      by apply negb_true_iff, bool_decide_eq_false in B. }
    by rewrite (proj2 (basic_spec _) B).
  - destruct s as [|c r]; [done|]. unfold kind_new. assert (Oc : c ∈ operators) by (apply O; by left).
    rewrite (proj2 (reserved_none _) NR).
    pose proof (lits _ _ c op_ok_all Oc) as G. unfold op_ok in G.
    rewrite !andb_true_iff, !negb_true_iff, !bool_decide_eq_false in G. destruct G as [[[G1 G3] G4] G5].
    rewrite not_digits by done.
    destruct (Nat.eqb (length (c :: r)) 1 && contain SeparatorCharset c) eqn:P.
    { apply separator_spec in P; [|done]. by injection P. }
    destruct (has_prefix (c :: r) [c_dq] || has_prefix (c :: r) [c_bq]) eqn:Q.
    { apply quote_spec in Q. destruct Q as [[= ?]|[= ?]]; done. }
    assert (NKB : ~ (c :: r ∈ other_keywords \/ c :: r ∈ basic_types)).
    { intros K%kw_facts. unfold kw_ok in K. rewrite !andb_true_iff, !negb_true_iff, !bool_decide_eq_false in K. tauto. }
    destruct (contain GolangKeywords (c :: r)) eqn:K; [apply other_keyword_spec in K; [tauto|done]|].
    destruct (contain GolangBasicType (c :: r)) eqn:B; [apply basic_spec in B; tauto|].
    by rewrite (proj2 (all_operators _) O).
  - destruct s as [|c r]; [done|]. unfold kind_new. rewrite (proj2 (reserved_none _) NR).
    destruct (forallb (contain NumberCharset) _) eqn:D; [exfalso; apply ND; split; [done|exact (proj1 (all_digits _) D)]|].
    destruct (Nat.eqb _ 1 && _) eqn:P; [destruct (NC (proj1 (separator_spec _ _ NR) P))|].
    destruct (has_prefix _ _ || _) eqn:Q; [destruct (NQ (proj1 (quote_spec _) Q))|].
    destruct (contain GolangKeywords _) eqn:K; [destruct (NK (proj1 (other_keyword_spec _ NR) K))|].
    destruct (contain GolangBasicType _) eqn:B; [destruct (NB (proj1 (basic_spec _) B))|].
    destruct (forallb (contain GolangSymbol) _) eqn:O; [exfalso; apply NO; split; [done|exact (proj1 (all_operators _) O)]|]. done.
Qed.

(** ** Scope keywords *)
Lemma is_scope_kind_spec s k : is_scope_kind s k = true <-> k `prefix_of` s.
Proof.
  unfold is_scope_kind, str_eqb. destruct (Nat.ltb_spec (length s) (length k)) as [L|L].
  - split; [done|]. intros H%prefix_length. lia.
  - rewrite bool_decide_eq_true. split.
    + intros E. exists (drop (length k) s). by rewrite <- E at 1; rewrite take_drop.
    + intros [t ->]. by rewrite take_app.
Qed.
Definition incomparable (ks : list str) (a : str) : bool :=
  forallb (fun b => bool_decide (a = b) || negb (is_scope_kind a b)) ks.
Lemma incomparable_all : forallb (incomparable scope_kinds) scope_kinds = true. Proof. vm_compute. reflexivity. Qed.
Definition nonempty (k : str) : bool := negb (bool_decide (k = [])).
Lemma scope_kinds_nonempty : forallb nonempty scope_kinds = true. Proof. vm_compute. reflexivity. Qed.
Lemma scope_kinds_unique s a b : a ∈ scope_kinds -> b ∈ scope_kinds -> a `prefix_of` s -> b `prefix_of` s -> a = b.
Proof.
  intros Ha Hb Pa Pb.
  assert (G : forall a b, a ∈ scope_kinds -> b ∈ scope_kinds -> b `prefix_of` a -> a = b).
  { clear. intros a b Ha Hb P.
    pose proof (lits _ _ a incomparable_all Ha) as H. unfold incomparable in H.
    apply (lits _ _ b) in H; [|done]. simpl in H. apply orb_true_iff in H as [H|H]; [by apply bool_decide_eq_true in H|].
    apply is_scope_kind_spec in P. by rewrite P in H. }
  destruct (prefix_weak_total a b s Pa Pb) as [H|H]; [symmetry|]; by apply G.
Qed.
Lemma find_scope_kind_spec s ks k : (forall a, a ∈ ks <-> a ∈ scope_kinds) -> k ∈ scope_kinds ->
  (find_scope_kind s ks = k <-> k `prefix_of` s).
Proof.
  intros E Hk.
  assert (G : forall ks, (forall a, a ∈ ks -> a ∈ scope_kinds) ->
     (k ∈ ks -> k `prefix_of` s -> find_scope_kind s ks = k) /\ (find_scope_kind s ks = k -> k `prefix_of` s)).
  { clear ks E. induction ks as [|a ks IH]; intros E.
    - split; [by intros H%elem_of_nil|]. simpl. intros <-. unfold SUnknown in Hk.
      apply (lits _ _ _ scope_kinds_nonempty) in Hk. done.
    - simpl. destruct (is_scope_kind s a) eqn:A.
      + apply is_scope_kind_spec in A. split; [|by intros <-]. intros _ P. eapply scope_kinds_unique; [|done|done|done]. apply E. by left.
      + destruct IH as [I1 I2]; [intros; apply E; by right|]. split; [|done].
        intros [->|H]%elem_of_cons P; [|by apply I1]. apply is_scope_kind_spec in P. congruence. }
  destruct (G ks) as [G1 G2]; [intros a; apply E|]. split; [done|]. apply G1. by apply E.
Qed.
Lemma find_scope_kind_unknown s ks : (forall a, a ∈ ks <-> a ∈ scope_kinds) ->
  (find_scope_kind s ks = SUnknown <-> forall k, k ∈ scope_kinds -> ~ k `prefix_of` s).
Proof.
  intros E. split.
  - intros H k Hk P. apply (find_scope_kind_spec s ks k E Hk) in P. rewrite H in P. subst k.
    apply (lits _ _ _ scope_kinds_nonempty) in Hk. done.
  - intros H. assert (G : forall k, k ∈ ks -> ~ k `prefix_of` s) by (intros k Hk; by apply H, E). clear -G.
    induction ks as [|a ks IH]; [done|]. simpl. destruct (is_scope_kind s a) eqn:A.
    + apply is_scope_kind_spec in A. exfalso. apply (G a); [by left|done].
    + apply IH. intros k Hk. apply G. by right.
Qed.

(** ** TidyText *)
Lemma tidy_flat s : tidy_text s = flat_map tidy_byte s.
Proof.
  unfold tidy_text, replace_all. induction s as [|c r IH]; [done|]. cbn [flat_map]. rewrite !flat_map_app, IH. f_equal.
  clear. unfold tidy_byte. repeat (case_bool_decide; subst; try done); simpl;
    repeat (rewrite ?bool_decide_eq_false_2 by done; simpl); rewrite ?bool_decide_eq_false_2 by done; done.
Qed.

(** ** AppendUnrepeatable *)
Lemma no_repeat_app {T} (a b : list T) : no_repeat a -> no_repeat b ->
  (forall x y, last a = Some x -> head b = Some y -> x <> y) -> no_repeat (a ++ b).
Proof.
  induction a as [|x a IH]; intros A B H; [done|]. destruct a as [|y a].
  - simpl. destruct b as [|z b]; [done|]. split; [|done]. by apply H.
  - destruct A as [A1 A2]. split; [done|]. apply IH; [done|done|]. intros u v Hu Hv. apply H; done.
Qed.
