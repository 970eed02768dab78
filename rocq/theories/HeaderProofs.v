(** The scope found at the beginning of a text, when the first tokens are known. *)
From Verif Require Export ResetSpec P_Lex P_Scope.

Lemma plain_token w r : plain_word w -> word_ends r -> token (w ++ r) w (kind_new w) r.
Proof.
  intros [N H] E. apply tk_word; [done| |done]. intros w1 c w2 ->.
  destruct (H c) as (H1 & H2 & H3 & H4); [apply elem_of_app; right; by left|]. split; [done|].
  intros [d Hd]. apply opener_head in Hd as (c' & r' & E' & Hc). injection E' as <- _. by destruct Hc as [-> |[-> | ->]].
Qed.
Lemma plain_no_nl w : plain_word w -> count_nl w = 0%Z.
Proof. intros [_ H]. apply count_nl_none. intros Hin. destruct (H _ Hin) as [Hs _]. apply Hs. apply (proj1 (bool_decide_eq_true (c_nl ∈ separators))). reflexivity. Qed.
Lemma sep_token c r : c ∈ separators -> token (c :: r) [c] (kind_new [c]) r.
Proof. apply tk_separator. Qed.
Lemma lexes_app s hdr r hdr' r' : lexes s hdr r -> lexes r hdr' r' -> lexes s (hdr ++ hdr') r'.
Proof. induction 1; intros H'; [done|]. econstructor; [eassumption|]. auto. Qed.
Lemma lexes_one s t k r : token s t k r -> lexes s [(t, k)] r.
Proof. intros. econstructor; [eassumption|constructor]. Qed.

Lemma scan_step n b st s ts t k r : scan n b st s ts -> token s t k r ->
  exists m b' st' ts', ts = (m, t, k) :: ts' /\ line_rule n b t m /\ bracket_step n b st t b' st' /\ scan (n + count_nl t) b' st' r ts'.
Proof.
  intros S T. destruct S as [n b st|n b st s t0 k0 r0 m b' st' ts T0 L B S].
  - apply token_text in T as E. apply token_nonempty in T. destruct t; done.
  - destruct (token_unique _ _ _ _ _ _ _ T T0) as (-> & -> & ->). by exists m, b', st', ts.
Qed.
(** Tokens without line breaks stay on their line. *)
Lemma scan_line n st s ts hdr r : scan n n st s ts -> Forall (fun p : ascii * Z => snd p = n) st -> lexes s hdr r ->
  Forall (fun t : str * kind => count_nl (fst t) = 0%Z) hdr -> exists ts', ts = map (fun t : str * kind => (n, fst t, snd t)) hdr ++ ts'.
Proof.
  intros S F L. revert st ts S F. induction L as [s|s t k r ts0 r' T L IH]; intros st ts S F Z0; [by exists ts|].
  apply Forall_cons in Z0 as [Z0 Z1]. cbn [fst] in Z0.
  destruct (scan_step _ _ _ _ _ _ _ _ S T) as (m & b' & st' & ts' & -> & (R1 & R2 & R3) & B & S').
  assert (Em : m = n).
  { destruct (decide (t = $"(")) as [E|N1]; [apply R2; by left|]. destruct (decide (t = $"{")) as [E|N2]; [apply R2; by right|].
    assert (D : (exists d, cut_off d t) \/ ~ exists d, cut_off d t).
    { destruct T as [c r0 Hc|w r0 Nw Hw Hr|d t0 r0 Nd Sh|t0 r0 Sh|d t0 Cut].
      - right. intros [d [Hd _]]. apply (sep_no_open c [] Hc). by exists d.
      - right. intros [d [Hd _]]. apply (word_no_open w r0 Nw Hw). exists d. by apply prefix_app_r.
      - right. intros [d' Hd]. destruct Sh as (_ & Cl & _). pose proof (closed_opener _ _ Cl) as Op.
        assert (d' = d) as -> by (eapply opener_inj; [apply Hd|exact Op]). by apply (proj2 Hd t0).
      - left. exists DLine. split.
        + destruct Sh as (_ & (b0 & Eb) & _). rewrite app_assoc in Eb. apply app_inj_tail in Eb as [-> _]. by apply prefix_app_r.
        + intros u [v Hu] (b0 & Eb). destruct Sh as (_ & _ & Sh). specialize (Sh u). rewrite !app_length in Sh. cbn [length] in Sh.
          assert (length t0 + 1 <= length u); [|rewrite Hu, app_length in *; lia].
          apply Sh; [|by exists b0]. rewrite Hu. exists (v ++ c_nl :: r0). by rewrite <- app_assoc.
      - left. by exists d. }
    destruct D as [D|D]; [rewrite R1 by done; lia|by apply R3]. }
  rewrite Z0, Z.add_0_r in S'.
  assert (G : b' = n /\ Forall (fun p : ascii * Z => snd p = n) st').
  { destruct B as [| |c b' st' ->|t ?|t ?]; [split; [done|by constructor]|split; [done|by constructor]| |done|done].
    apply Forall_cons in F as [F1 F2]. done. }
  destruct G as [-> F']. destruct (IH _ _ S' F' Z1) as (ts'' & ->). exists ts''. subst m. done.
Qed.

Lemma pieces_same_line h prev xs ls g gs : pieces h prev (xs ++ ls) g gs -> (forall x, x ∈ xs -> line_of h (Some x) = prev) ->
  exists g', g = xs ++ g' /\ pieces h prev ls g' gs.
Proof.
  revert prev g. induction xs as [|x xs IH]; intros prev g P H; [by exists g|].
  assert (Ex : line_of h (Some x) = prev) by (apply H; by left).
  inversion P as [|? ? ? g0 gs0 N P'|? ? ? g0 gs0 [N _] P']; subst; [|done].
  destruct (IH _ _ P') as (g' & -> & P2); [|by exists g'].
  intros y Hy. apply H. by right.
Qed.

Lemma header_scope ord h startLine text hdr rest t0 k0 h' scs : any_order ord -> SpecNode.wf h -> startLine <> 1%Z ->
  lexes text ((t0, k0) :: hdr) rest -> (exists k, begins k t0) -> Forall (fun t : str * kind => count_nl (fst t) = 0%Z) ((t0, k0) :: hdr) ->
  parse_scope ord h startLine text = Ok (h', scs) ->
  exists h1 h2 l0 xs g gs,
    tokenised ord h text h1 ((l0 :: xs) ++ g ++ concat gs) /\
    map (pay h1) (l0 :: xs) = map (fun t : str * kind => (0%Z, fst t, snd t)) ((t0, k0) :: hdr) /\
    scs = scope_of h1 ((l0 :: xs) ++ g) :: map (scope_of h1) gs /\
    SpecNode.wf h1 /\ SpecNode.wf h' /\ same_payload h1 h2 /\ length h' = length h1 /\
    chain h2 ((l0 :: xs) ++ g) /\ refined_from h2 h' ((l0 :: xs) ++ g).
Proof.
  intros O W Nl L B Z0 E.
  destruct (C29_tokeniser_terminates ord h text O W) as (h1 & ls & T & _).
  destruct (parse_inv ord h startLine text h1 ls h' scs O W T E) as (h2 & g & gs & HP & -> & W1 & W' & SP & Ll & Tk & Cg & Cgs & O2 & O3 & R3).
  destruct (scan_line 0 [] text _ _ _ Tk (Forall_nil_2 _) L Z0) as (ts' & Ets).
  destruct ls as [|l0 ls]; [done|]. cbn [map app fst snd] in Ets. injection Ets as Em Et Ek Ets'.
  assert (E0 : pay h1 l0 = (0%Z, t0, k0)) by (unfold pay; congruence).
  apply map_eq_app in Ets' as (xs & ls' & -> & Exs & _).
  assert (Line0 : forall x, x ∈ l0 :: xs -> line_of h1 (Some x) = 0%Z).
  { intros x Hx. apply elem_of_cons in Hx as [-> |Hx]; [by injection E0|].
    assert (Hin : pay h1 x ∈ map (pay h1) xs) by (apply elem_of_list_fmap; by exists x).
    rewrite Exs in Hin. apply elem_of_list_fmap in Hin as (t & Et' & _). by injection Et'. }
  assert (St : starts h1 (startLine - 1) l0).
  { split; [rewrite Line0 by (by left); lia|]. by rewrite Et. }
  inversion HP as [|? ? ? g0 gs0 N P|? ? ? g0 gs0 _ P]; subst; [done|].
  rewrite Line0 in P by (by left).
  destruct (pieces_same_line _ _ _ _ _ _ P) as (g' & -> & P'); [intros x Hx; apply Line0; by right|].
  pose proof (pieces_concat _ _ _ _ _ P') as El.
  exists h1, h2, l0, xs, g', gs0. apply Forall_cons in Cgs as [Cg1 _]. apply Forall_cons in R3 as [Rg _].
  rewrite El in T. split; [done|]. split; [cbn [map]; by rewrite E0, Exs|]. split; [done|]. done.
Qed.
