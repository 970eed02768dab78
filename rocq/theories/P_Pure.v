(** C15-C27: charset, helper, kind, scope keywords, trie.  Statements use the
    models [Kind.v], [Trie.v], [Node.v] and the vocabulary of [SpecPure.v]. *)
From Verif Require Import SpecNode TrieProofs SpecUtf UtfProofs.

(** ** C15 *)
Theorem C15_kind_new_spec : forall s k, kind_new s = k <-> class s k.
Proof. intros s k. split; [apply class_kind_new|apply kind_new_class]. Qed.
(** Every text has exactly one class. *)
Theorem C15_class_total : forall s, exists k, class s k.
Proof. intros s. exists (kind_new s). by apply class_kind_new. Qed.
Theorem C15_class_functional : forall s k k', class s k -> class s k' -> k = k'.
Proof. intros s k k' H H'. apply kind_new_class in H, H'. congruence. Qed.
Example ex_class : kind_new $"123" = KNumber /\ kind_new $"func" = KFunc /\ kind_new $"return" = KKeyword /\
  kind_new $":=" = KSymbol /\ kind_new $"x1" = KRaw /\ kind_new [c_cr] = KSeparator /\ kind_new $"_" = KSymbol.
Proof. vm_compute. repeat split. Qed.

(** ** C16: the byte tests made while ranging over runes. *)
Theorem C16_digits_every_byte : forall s,
  forallb (contain NumberCharset) (range_bytes s) = true <-> forall c, c ∈ s -> c ∈ digits.
Proof. exact all_digits. Qed.
Theorem C16_operators_every_byte : forall s,
  forallb (contain GolangSymbol) (range_bytes s) = true <-> forall c, c ∈ s -> c ∈ operators.
Proof. exact all_operators. Qed.
(** Through the API: Number and Symbol texts consist of such bytes, multi-byte
    and invalid encodings included. *)
Theorem C16_number_bytes : forall s, kind_new s = KNumber <-> s <> [] /\ forall c, c ∈ s -> c ∈ digits.
Proof.
  intros s. rewrite C15_kind_new_spec. split.
  - remember KNumber as k eqn:E. intros H. destruct H; try discriminate; [|done].
    apply reserved_elem in H as [H _]. apply (lits _ (fun k => negb (kind_eqb k KNumber))) in H; [|vm_compute; reflexivity].
    subst k. discriminate H.
  - intros H. by apply cl_number.
Qed.
Theorem C16_symbol_bytes : forall s, kind_new s = KSymbol <->
  s <> [] /\ (forall c, c ∈ s -> c ∈ operators) /\ s ∉ [$","; $":"; $";"; $"("; $")"; $"{"; $"}"; $"["; $"]"].
Proof.
  assert (Op : forall s k, (s, k) ∈ reserved -> (forall c, c ∈ s -> c ∈ operators) -> s ∈ [$","; $":"; $";"; $"("; $")"; $"{"; $"}"; $"["; $"]"]).
  { intros s k H Ho. unfold reserved in H. repeat (apply elem_of_cons in H as [H|H]; [injection H as -> _;
      first [solve [apply (bool_decide_eq_true (_ ∈ _)); vm_compute; reflexivity]|exfalso;
        match type of Ho with forall c, c ∈ ?w -> _ => let c := eval cbv in (default c_nl (head w)) in specialize (Ho c ltac:(left)); apply (bool_decide_eq_true (_ ∈ _)) in Ho; vm_compute in Ho; discriminate Ho end]|]).
    by apply elem_of_nil in H. }
  intros s. rewrite C15_kind_new_spec. split.
  - remember KSymbol as k eqn:E. intros H. destruct H as [|k H| | | | | |[N Ho] R|]; try discriminate.
    + apply reserved_elem in H as [H _]. apply (lits _ (fun k => negb (kind_eqb k KSymbol))) in H; [|vm_compute; reflexivity].
      subst k. discriminate H.
    + split; [done|]. split; [done|]. intros Hs. apply R. unfold is_reserved.
      repeat (apply elem_of_cons in Hs as [->|Hs]; [match goal with |- exists k, (?w, k) ∈ _ => exists (kind_new w) end; apply (bool_decide_eq_true (_ ∈ _)); vm_compute; reflexivity|]). by apply elem_of_nil in Hs.
  - intros (N & Ho & R). apply cl_symbol; [done|]. intros [k H]. apply R. by apply (Op s k).
Qed.
(** The loop does skip bytes: a two-byte rune is visited once. *)
Example ex_range_skips : range_bytes [chr 206; chr 177] = [chr 206]. Proof. reflexivity. Qed.

(** ** C17 *)
Definition pairs : list (kind * kind) := [(KParenL, KParenR); (KCurlyL, KCurlyR); (KSquareL, KSquareR)].
Theorem C17_get_close_spec : forall k k',
  get_close k = (k', true) <-> (k, k') ∈ pairs \/ (k', k) ∈ pairs.
Proof.
  intros k k'. unfold get_close, kind_eqb, pairs. split.
  - intros H. rewrite !elem_of_cons, !elem_of_nil.
    repeat case_bool_decide; subst; injection H as <-; tauto || discriminate.
  - intros [H|H]; repeat (apply elem_of_cons in H as [[= -> ->]|H]; [vm_compute; reflexivity|]); by apply elem_of_nil in H.
Qed.
Theorem C17_get_close_involutive : forall k k', get_close k = (k', true) -> get_close k' = (k, true) /\ k' <> k.
Proof.
  intros k k' H. split; [apply C17_get_close_spec; apply C17_get_close_spec in H; tauto|].
  apply C17_get_close_spec in H as [H|H];
    repeat (apply elem_of_cons in H as [[= -> ->]|H]; [discriminate|]); by apply elem_of_nil in H.
Qed.
Theorem C17_get_close_else : forall k, snd (get_close k) = false <-> forall p, p ∈ pairs -> k <> fst p /\ k <> snd p.
Proof.
  intros k. split.
  - intros H p Hp. split; intros ->; repeat (apply elem_of_cons in Hp as [->|Hp]; [discriminate H|]); by apply elem_of_nil in Hp.
  - intros H. destruct (get_close k) as [k' [|]] eqn:E; [|done]. exfalso. apply C17_get_close_spec in E as [E|E].
    + by destruct (H _ E) as [? _].
    + by destruct (H _ E) as [_ ?].
Qed.
(** The pairs have matching shapes. *)
Example ex_pairs : map (fun p => (k_text (fst p), k_text (snd p))) pairs = [($"(", $")"); ($"{", $"}"); ($"[", $"]")].
Proof. reflexivity. Qed.

(** ** C18 *)
Definition recovered (k : kind) : bool := kind_eqb (kind_new (k_text k)) k.
Lemma recovered_all : forallb (fun k => kind_eqb k KPointer || kind_eqb k KAddress || recovered k) fixed_kinds = true.
Proof. vm_compute. reflexivity. Qed.
Theorem C18_fixed_text_recovered : forall k, k ∈ fixed_kinds -> k <> KPointer -> k <> KAddress -> kind_new (k_text k) = k.
Proof.
  intros k H N1 N2. apply (lits _ _ _ recovered_all) in H. unfold recovered, kind_eqb in H.
  rewrite !orb_true_iff, !bool_decide_eq_true in H. tauto.
Qed.
Theorem C18_never_pointer_or_address : forall s, kind_new s <> KPointer /\ kind_new s <> KAddress.
Proof.
  assert (G : forall k, k ∈ [KPointer; KAddress] -> forall s, kind_new s <> k).
  { intros k Hk s E. apply C15_kind_new_spec in E.
    destruct E; try (repeat (apply elem_of_cons in Hk as [Hk|Hk]; [discriminate|]); by apply elem_of_nil in Hk).
    apply reserved_elem in H as [H _].
    apply (lits _ (fun k => negb (kind_eqb k KPointer) && negb (kind_eqb k KAddress))) in H; [|vm_compute; reflexivity].
    repeat (apply elem_of_cons in Hk as [->|Hk]; [discriminate H|]). by apply elem_of_nil in Hk. }
  intros s. split; apply G; [by left|right; by left].
Qed.
Theorem C18_all_fixed_text_recovered_refuted : ~ (forall k, k ∈ fixed_kinds -> kind_new (k_text k) = k).
Proof.
  intros H. assert (E : kind_new (k_text KPointer) = KPointer).
  { apply H. apply (bool_decide_eq_true (KPointer ∈ fixed_kinds)). vm_compute. reflexivity. }
  vm_compute in E. discriminate E.
Qed.
(** The fixed kinds are exactly the predeclared kinds with a text, and are told
    apart by it. *)
Theorem C18_fixed_text_injective : forall k k', k ∈ fixed_kinds -> k' ∈ fixed_kinds -> k_text k = k_text k' -> k = k'.
Proof.
  intros k k' H H' E.
  assert (C : forallb (fun k => forallb (fun k' => negb (str_eqb (k_text k) (k_text k')) || kind_eqb k k') fixed_kinds) fixed_kinds = true)
    by (vm_compute; reflexivity).
  apply (lits _ _ k) in C; [|done]. apply (lits _ _ k') in C; [|done]. unfold str_eqb, kind_eqb in C.
  rewrite orb_true_iff, negb_true_iff, bool_decide_eq_false, bool_decide_eq_true in C. tauto.
Qed.

(** ** C19 *)
Lemma keywords_are : scope_keywords = scope_kinds. Proof. reflexivity. Qed.
Theorem C19_scope_keyword_spec : forall s k, k ∈ scope_keywords -> (new_scope_kind s = k <-> k `prefix_of` s).
Proof. intros s k. rewrite keywords_are. by apply find_scope_kind_spec. Qed.
Theorem C19_no_scope_keyword : forall s, new_scope_kind s = SUnknown <-> forall k, k ∈ scope_keywords -> ~ k `prefix_of` s.
Proof. intros s. rewrite keywords_are. by apply find_scope_kind_unknown. Qed.
Theorem C19_order_independent : forall s ks, (forall k, k ∈ ks <-> k ∈ scope_keywords) ->
  find_scope_kind s ks = new_scope_kind s.
Proof.
  intros s ks E0. assert (E : forall k, k ∈ ks <-> k ∈ scope_kinds) by (intros k; rewrite <- keywords_are; apply E0).
  destruct (decide (new_scope_kind s ∈ scope_keywords)) as [H|H].
  - apply (find_scope_kind_spec s ks _ E); [by rewrite <- keywords_are|]. by apply C19_scope_keyword_spec.
  - assert (U : new_scope_kind s = SUnknown).
    { apply C19_no_scope_keyword. intros k Hk P. apply H. by rewrite (proj2 (C19_scope_keyword_spec s k Hk) P). }
    rewrite U. apply (find_scope_kind_unknown s ks E). by apply C19_no_scope_keyword.
Qed.
Theorem C19_at_most_one_keyword : forall s k k', k ∈ scope_keywords -> k' ∈ scope_keywords ->
  k `prefix_of` s -> k' `prefix_of` s -> k = k'.
Proof. rewrite keywords_are. exact scope_kinds_unique. Qed.
(** ... so identifiers starting with a keyword count as one. *)
Theorem C19_identifier_taken_for_keyword : forall k t, k ∈ scope_keywords -> new_scope_kind (k ++ t) = k.
Proof. intros k t H. apply C19_scope_keyword_spec; [done|by exists t]. Qed.
Example ex_scope_kind : new_scope_kind $"typeLoop" = SType /\ new_scope_kind $"/* x */" = SInnerComment /\
  new_scope_kind $"fun" = SUnknown.
Proof. vm_compute. repeat split. Qed.

(** ** C20 *)
Theorem C20_has_suffix_spec : forall s t, has_suffix s t = true <-> t `suffix_of` s.
Proof. exact has_suffix_spec. Qed.
Theorem C20_has_prefix_ascii : forall s t, Forall ascii_byte t -> (has_prefix s t = true <-> t `prefix_of` s).
Proof. exact has_prefix_spec. Qed.
Theorem C20_has_prefix_complete : forall s t, t `prefix_of` s -> has_prefix s t = true.
Proof. exact has_prefix_of. Qed.
Theorem C20_has_prefix_sound_refuted : ~ (forall s t, has_prefix s t = true -> t `prefix_of` s).
Proof.
  intros H. specialize (H [chr 206; chr 178] [chr 206; chr 177] ltac:(vm_compute; reflexivity)).
  apply prefix_bytes in H as [_ H]. specialize (H 1 ltac:(simpl; lia)). vm_compute in H. discriminate H.
Qed.
(** What it decides in general: agreement at the rune starts of the prefix. *)
Theorem C20_has_prefix_exact : forall s t, has_prefix s t = true <->
  length t <= length s /\ forall i, i ∈ range_pos t -> s !! i = t !! i.
Proof.
  intros s t. unfold has_prefix. destruct (Nat.ltb_spec (length s) (length t)).
  - split; [done|]. intros [? _]. lia.
  - rewrite forallb_forall. split.
    + intros G. split; [lia|]. intros i Hi. apply elem_of_list_In, G in Hi. by apply bool_decide_eq_true in Hi.
    + intros [_ G] i Hi. apply bool_decide_eq_true, G. by apply elem_of_list_In.
Qed.
(** The same with the UTF-8 specification: what counts is where characters start. *)
Theorem C20_has_prefix_runes : forall s t js, rune_starts 0 t js ->
  (has_prefix s t = true <-> length t <= length s /\ forall i, i ∈ js -> s !! i = t !! i).
Proof. intros s t js H. apply starts_ok in H as ->. apply C20_has_prefix_exact. Qed.
Theorem C20_rune_starts_total : forall t, exists js, rune_starts 0 t js.
Proof. intros t. eexists. by apply starts_ok. Qed.
(** Three-byte character, then an invalid byte, then a letter. *)
Example ex_rune_starts : rune_starts 0 [chr 228; chr 184; chr 150; chr 255; "a"%char] [0; 3; 4] /\
  has_prefix [chr 228; chr 0; chr 0; chr 255; "a"%char] [chr 228; chr 184; chr 150; chr 255; "a"%char] = true /\
  has_prefix [chr 228; chr 184; chr 150; chr 0; "a"%char] [chr 228; chr 184; chr 150; chr 255; "a"%char] = false.
Proof. split; [by apply starts_ok|]. vm_compute. by split. Qed.
Example ex_prefix_ascii : Forall ascii_byte $"type" /\ has_prefix $"type X" $"type" = true /\ has_prefix $"typ" $"type" = false.
Proof. split; [repeat constructor|]. vm_compute. split; reflexivity. Qed.

(** ** C21 *)
Theorem C21_tidy_bytewise : forall s, tidy_text s = flat_map tidy_byte s.
Proof. exact tidy_flat. Qed.
Theorem C21_tidy_one_line : forall s c, c ∈ tidy_text s -> c <> c_nl /\ c <> c_cr /\ c <> c_tab.
Proof.
  intros s c. rewrite tidy_flat, elem_of_list_In, in_flat_map. intros (x & _ & H). apply elem_of_list_In in H.
  unfold tidy_byte in H. repeat case_bool_decide;
    try (repeat (apply elem_of_cons in H as [->|H]; [done|]); by apply elem_of_nil in H).
Qed.
Lemma dec_fuel_digits f : forall n acc c, c ∈ dec_fuel f n acc -> c ∈ acc \/ c ∈ digits.
Proof.
  induction f as [|f IH]; intros n acc c H; [by left|]. cbn [dec_fuel] in H.
  assert (D : digit (n mod 10) ∈ digits).
  { assert (L : (n mod 10 < 10)%N) by (apply N.mod_lt; lia). revert L. generalize (n mod 10)%N. clear. intros m L.
    rewrite <- (N2Nat.id m). assert (L' : N.to_nat m < 10) by lia. revert L'. generalize (N.to_nat m). clear. intros i L.
    apply (incl_lits (map (fun i => digit (N.of_nat i)) (seq 0 10))); [vm_compute; reflexivity|].
    apply (elem_of_list_fmap_1 (fun i => digit (N.of_nat i))). apply elem_of_seq. lia. }
  assert (G : c ∈ digit (n mod 10) :: acc -> c ∈ acc \/ c ∈ digits) by (intros [->|?]%elem_of_cons; tauto).
  destruct (_ =? 0)%N; [by apply G|]. apply IH in H as [H|H]; [by apply G|by right].
Qed.
Lemma dec_Z_digits z c : c ∈ dec_Z z -> c ∈ ("-"%char :: digits).
Proof.
  unfold dec_Z, dec_N. intros H. apply elem_of_cons. destruct (z <? 0)%Z.
  - apply elem_of_cons in H as [H|H]; [by left|]. right. apply dec_fuel_digits in H as [H|H]; [by apply elem_of_nil in H|done].
  - right. apply dec_fuel_digits in H as [H|H]; [by apply elem_of_nil in H|done].
Qed.
Theorem C21_description_one_line : forall h n, c_nl ∉ k_name (kind_of h n) -> c_nl ∉ description h n.
Proof.
  intros h n K. unfold description. destruct n as [n|]; [|by apply (bool_decide_eq_false (c_nl ∈ _)); vm_compute].
  rewrite !elem_of_app. intros [H|[H|[H|[H|H]]]].
  - apply dec_Z_digits in H. apply (lits _ (fun c => negb (bool_decide (c = c_nl)))) in H; [done|vm_compute; reflexivity].
  - by apply (lits _ (fun c => negb (bool_decide (c = c_nl)))) in H; [|vm_compute; reflexivity].
  - by apply C21_tidy_one_line in H as [? _].
  - by apply (lits _ (fun c => negb (bool_decide (c = c_nl)))) in H; [|vm_compute; reflexivity].
  - done.
Qed.
(** Every kind that kind.New or the tokeniser assigns meets that hypothesis. *)
Theorem C21_kind_names_one_line : forall s, c_nl ∉ k_name (kind_new s).
Proof.
  intros s. pose proof (class_kind_new s _ eq_refl) as H.
  assert (G : forall k, k ∈ [KNone; KRaw; KNumber; KSymbol; KBasic; KSeparator; KKeyword; KString] ++ new_switch -> c_nl ∉ k_name k).
  { intros k Hk. apply (lits _ (fun k => negb (bool_decide (c_nl ∈ k_name k)))) in Hk; [|vm_compute; reflexivity].
    by apply negb_true_iff, bool_decide_eq_false in Hk. }
  apply G. destruct H; try (apply elem_of_app; left; rewrite !elem_of_cons; tauto).
  apply elem_of_app. right. by apply reserved_elem in H as [H _].
Qed.
Example ex_tidy : tidy_text [c_nl; "a"%char; c_tab; "b"%char] = $"\na -> b". Proof. reflexivity. Qed.

(** ** C22 *)
Theorem C22_append_spec : forall (T : Type) `{EqDecision T} (sl es : list T),
  append_unrepeatable sl es =
  match last sl, es with
  | Some x, e :: rest => if bool_decide (x = e) then sl ++ rest else sl ++ es
  | _, _ => sl ++ es
  end.
Proof.
  intros T D sl es. unfold append_unrepeatable. destruct es as [|e rest].
  - rewrite app_nil_r. by destruct (last sl).
  - destruct (last sl) as [x|] eqn:L; [done|]. by apply last_None in L as ->.
Qed.
Theorem C22_no_repeat : forall (T : Type) `{EqDecision T} (sl es : list T),
  no_repeat sl -> no_repeat es -> no_repeat (append_unrepeatable sl es).
Proof.
  intros T D sl es A B. rewrite C22_append_spec. destruct (last sl) as [x|] eqn:L.
  2:{ apply last_None in L as ->. done. }
  destruct es as [|e rest]; [by rewrite app_nil_r|]. case_bool_decide as E.
  - subst e. apply no_repeat_app; [done|by destruct rest as [|? ?]; [|destruct B]|].
    intros u v Hu Hv. rewrite L in Hu. injection Hu as <-. destruct rest as [|w rest]; [done|]. injection Hv as <-. by destruct B.
  - apply no_repeat_app; [done|done|]. intros u v Hu Hv. rewrite L in Hu. injection Hu as <-. by injection Hv as <-.
Qed.
Example ex_append : append_unrepeatable [1; 2; 3] [3; 4] = [1; 2; 3; 4] /\ no_repeat [1; 2; 3] /\ no_repeat [3; 4].
Proof. vm_compute. repeat split; lia. Qed.

(** ** C23 *)
Theorem C23_new_contain : forall (T : Type) `{EqDecision T} (xs : list T) x,
  contain (cset_new xs) x = true <-> x ∈ xs.
Proof. intros. by rewrite contain_new, bool_decide_eq_true. Qed.
Theorem C23_new_slice_contain : forall (T : Type) `{EqDecision T} (xss : list (list T)) x,
  contain (cset_new_slice xss) x = true <-> exists xs, xs ∈ xss /\ x ∈ xs.
Proof.
  intros T D xss x. rewrite contain_new_slice, bool_decide_eq_true, elem_of_list_In, in_concat.
  split; intros (l & A & B); exists l; by rewrite !elem_of_list_In in *.
Qed.
Theorem C23_nil_contain : forall (T : Type) `{EqDecision T} (x : T), contain None x = false.
Proof. done. Qed.

(** ** C24 *)
Theorem C24_found_iff : forall (T : Type) (zero : T) es s,
  snd (find_text zero (Some (new_trie zero es)) s) = true <->
  s = [] \/ exists k v, (k, v) ∈ es /\ range_bytes s `prefix_of` range_bytes k.
Proof. intros. apply found_iff. Qed.
Theorem C24_value_of_last_overwrite : forall (T : Type) (zero : T) es1 k v es2 s,
  overwrites (range_bytes k) (range_bytes s) ->
  (forall k' v', (k', v') ∈ es2 -> ~ overwrites (range_bytes k') (range_bytes s)) ->
  find_text zero (Some (new_trie zero (es1 ++ (k, v) :: es2))) s =
    (if bool_decide (range_bytes s = range_bytes k) then v else zero, true).
Proof. intros T zero es1 k v es2 s. apply value_last. Qed.
Theorem C24_value_otherwise_zero : forall (T : Type) (zero : T) es s,
  (forall k v, (k, v) ∈ es -> ~ overwrites (range_bytes k) (range_bytes s)) ->
  fst (find_text zero (Some (new_trie zero es)) s) = zero.
Proof. intros T zero es s. apply value_none. Qed.
(** The two cases above cover every history and every text. *)
Theorem C24_cases : forall (T : Type) (es : list (str * T)) s,
  (exists es1 k v es2, es = es1 ++ (k, v) :: es2 /\ overwrites (range_bytes k) (range_bytes s) /\
     forall k' v', (k', v') ∈ es2 -> ~ overwrites (range_bytes k') (range_bytes s)) \/
  (forall k v, (k, v) ∈ es -> ~ overwrites (range_bytes k) (range_bytes s)).
Proof. intros. apply last_overwrite. Qed.
Theorem C24_nil_trie : forall (T : Type) (zero : T) s k,
  find_text zero None s = (zero, false) /\ find_text_rev zero None s = (zero, false) /\
  find_byte zero None s = (zero, false) /\ find_byte_rev zero None s = (zero, false) /\
  trie_value zero None = zero /\ trie_next None k = (@None (trie T), false).
Proof. repeat split. Qed.
(** One step: after [Insert k v] the key leads to a trie with the value v that
    goes on as the old child did; other keys and the value itself stay. *)
Theorem C24_insert_next : forall (T : Type) (zero : T) (t : trie T) k v,
  let c := insert_child t k v in let t' := set_child t k c in
  trie_next (Some t') k = (Some c, true) /\ trie_value zero (Some c) = v /\
  (forall k2, trie_next (Some c) k2 = trie_next (fst (trie_next (Some t) k)) k2) /\
  (forall k2, k2 <> k -> trie_next (Some t') k2 = trie_next (Some t) k2) /\
  trie_value zero (Some t') = trie_value zero (Some t).
Proof.
  intros T zero [w n] k v c t'. unfold t', c, set_child, insert_child. cbn.
  split; [by rewrite bool_decide_true|]. split; [destruct n as [m|]; [destruct (m k) as [[]|]|]; reflexivity|].
  split; [intros k2; destruct n as [m|]; [destruct (m k) as [[]|]|]; reflexivity|].
  split; [|reflexivity]. intros k2 N. rewrite bool_decide_false; [|done]. destruct n as [m|]; [|reflexivity]. reflexivity.
Qed.
Example ex_trie : find_text 0 (Some (new_trie 0 [($"do", 1); ($"dot", 2); ($"d", 3); ($"", 9)])) $"dot" = (2, true) /\
  find_text 0 (Some (new_trie 0 [($"do", 1); ($"dot", 2); ($"d", 3)])) $"do" = (0, true) /\
  find_text 0 (Some (new_trie 0 [($"do", 1); ($"dot", 2); ($"d", 3)])) $"d" = (3, true) /\
  find_text 0 (Some (new_trie 0 [($"do", 1); ($"dot", 2); ($"d", 3)])) $"x" = (0, false).
Proof. vm_compute. repeat split. Qed.

(** ** C25 *)
Theorem C25_longer_text_keeps_values_refuted : ~ (forall (t : trie nat) k1 k2 v1 v2, k1 `prefix_of` k2 -> k1 <> k2 ->
  find_text 0 (Some (add_text 0 (add_text 0 t k1 v1) k2 v2)) k1 = (v1, true)).
Proof.
  intros H. specialize (H (empty_trie 0) $"a" $"ab" 1 2). vm_compute in H.
  assert (E : (0, true) = (1, true)) by (apply H; [by exists ["b"%char]|done]). discriminate E.
Qed.
Theorem C25_longer_text_resets : forall (T : Type) (zero : T) t k1 k2 v1 v2,
  range_bytes k1 `prefix_of` range_bytes k2 -> range_bytes k1 <> range_bytes k2 -> k1 <> [] ->
  find_text zero (Some (add_text zero (add_text zero t k1 v1) k2 v2)) k1 = (zero, true).
Proof.
  intros T zero t k1 k2 v1 v2 P N E. rewrite find_text_add. rewrite bool_decide_eq_true_2.
  - by rewrite bool_decide_eq_false_2.
  - unfold overwrites. destruct (range_bytes k1) eqn:R; [destruct (E (proj1 (range_bytes_nil k1) R))|done].
Qed.
Theorem C25_other_texts_keep_values : forall (T : Type) (zero : T) t k v s,
  ~ overwrites (range_bytes k) (range_bytes s) ->
  find_text zero (Some (add_text zero t k v)) s = find_text zero (Some t) s.
Proof. intros T zero t k v s H. by rewrite find_text_add, bool_decide_eq_false_2. Qed.
Theorem C25_added_is_found : forall (T : Type) (zero : T) t k v,
  find_text zero (Some (add_text zero t k v)) k = (v, true).
Proof.
  intros T zero t k v. rewrite find_text_add, !bool_decide_eq_true_2; [done|done|].
  unfold overwrites. destruct (range_bytes k); done.
Qed.
Example ex_keeps : ~ overwrites (range_bytes $"ax") (range_bytes $"ab"). Proof. intros H. by apply prefix_cons_inv_2, prefix_cons_inv_1 in H. Qed.

(** ** C26 *)
Theorem C26_order_independent : forall (T : Type) (zero : T) es es', Permutation es es' ->
  (forall k v k' v', (k, v) ∈ es -> (k', v') ∈ es -> range_bytes k `prefix_of` range_bytes k' -> (k, v) = (k', v')) ->
  forall s, find_text zero (Some (new_trie zero es)) s = find_text zero (Some (new_trie zero es')) s.
Proof. intros T zero es es'. apply order_independent. Qed.
Theorem C26_order_independent_refuted : ~ (forall es es' : list (str * nat), Permutation es es' -> NoDup (map fst es) ->
  forall s, find_text 0 (Some (new_trie 0 es)) s = find_text 0 (Some (new_trie 0 es')) s).
Proof.
  intros H. specialize (H [($"a", 1); ($"ab", 2)] [($"ab", 2); ($"a", 1)]).
  assert (E : (0, true) = (1, true)); [|discriminate E].
  apply (H (Permutation_swap _ _ _)) with (s := $"a"). apply (bool_decide_eq_true (NoDup _)). vm_compute. reflexivity.
Qed.
Example ex_prefix_free : let es := [($"func", 1); ($"type", 2); ($"var", 3)] in
  forall k v k' v', (k, v) ∈ es -> (k', v') ∈ es -> range_bytes k `prefix_of` range_bytes k' -> (k, v) = (k', v').
Proof.
  intros es k v k' v' H H'.
  repeat (apply elem_of_cons in H as [[= -> ->]|H];
    [repeat (apply elem_of_cons in H' as [[= -> ->]|H'];
       [intros P; try done; exfalso; revert P; apply (bool_decide_eq_false (_ `prefix_of` _)); vm_compute; reflexivity|]); by apply elem_of_nil in H'|]).
  by apply elem_of_nil in H.
Qed.

(** ** C27 *)
Theorem C27_text_and_byte_agree : forall (T : Type) (zero : T) t s, Forall ascii_byte s ->
  find_byte zero t s = find_text zero t s /\
  find_text_rev zero t s = find_text zero t (rev s) /\ find_byte_rev zero t s = find_byte zero t (rev s).
Proof.
  intros T zero t s A. unfold find_byte, find_text, find_text_rev, find_byte_rev.
  rewrite !range_bytes_ascii; [done|by apply Forall_rev|done].
Qed.
Theorem C27_reverse_text_and_byte_agree : forall (T : Type) (zero : T) t s,
  find_text_rev zero t s = find_byte_rev zero t s.
Proof. done. Qed.
Theorem C27_text_and_byte_agree_refuted : ~ (forall (t : trie nat) s, find_byte 0 (Some t) s = find_text 0 (Some t) s).
Proof.
  intros H. specialize (H (new_trie 0 [([chr 206; chr 177], 7)]) [chr 206; chr 177]). vm_compute in H. discriminate H.
Qed.
(** Reversed lookup of an added text: found through the reversed text. *)
Theorem C27_reverse_of_added : forall (T : Type) (zero : T) t k v, Forall ascii_byte k ->
  find_text_rev zero (Some (add_text zero t (rev k) v)) k = (v, true).
Proof.
  intros T zero t k v A. destruct (C27_text_and_byte_agree T zero (Some (add_text zero t (rev k) v)) k A) as (_ & -> & _).
  apply C25_added_is_found.
Qed.
Example ex_ascii_text : Forall ascii_byte $"hello". Proof. repeat constructor. Qed.
