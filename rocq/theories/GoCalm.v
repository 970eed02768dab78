(** The grammar of SpecGo.v: no scope starts inside a declaration. *)
From Verif Require Import SpecGo Opaque LexSpecProofs LexRun P_Lex P_Spell HeaderProofs LocalProofs GoProofs.

Lemma word_dec t : is_word t \/ ~ is_word t.
Proof.
  assert (D : opens t \/ ~ opens t).
  { destruct (bool_decide (existsb (fun d => bool_decide (opener d `prefix_of` t)) [DString; DRaw; DBlock; DLine] = true)) eqn:E.
    - left. apply bool_decide_eq_true, existsb_exists in E as (d & _ & P). exists d. by apply bool_decide_eq_true in P.
    - right. intros [d P]. apply bool_decide_eq_false in E. apply E, existsb_exists. exists d. split; [destruct d; cbn; tauto|by apply bool_decide_eq_true]. }
  destruct D as [D|D]; [right; intros [N _]; by apply N|]. destruct t as [|c [|c' t]]; [left; by split|..].
  - destruct (decide (c ∈ separators)) as [H|H]; [right; intros [_ N]; by apply (N c)|left]. split; [done|]. intros x [= <-]. done.
  - left. by split.
Qed.

(** [calm p g st ts]: no token of [ts] starts a scope.  [p]: the token before is
    reported on the current line; [g]: so would be an opening bracket; [st]: the
    open brackets and [g] outside of them. *)
Inductive calm : bool -> bool -> list (ascii * bool) -> list str -> Prop :=
| cm_nil p g st : calm p g st []
| cm_open p g st o e r : (o, e) ∈ [("("%char, ")"%char); ("{"%char, "}"%char)] -> calm g true ((e, g) :: st) r -> calm p g st ([o] :: r)
| cm_close p g st c g' r : calm true g' st r -> calm p g ((c, g') :: st) ([c] :: r)
| cm_word p g st t r : is_word t -> ((exists k, begins k t) -> p = true) -> calm true true st r -> calm p g st (t :: r)
| cm_other p g st t r : ~ is_word t -> t <> $"(" -> t <> $"{" -> (forall c g' st', st = (c, g') :: st' -> t <> [c]) ->
    ((exists k, begins k t) -> p = true) -> count_nl t = 0%Z -> calm true g st r -> calm p g st (t :: r)
| cm_break p g st t r : ~ is_word t -> t <> $"(" -> t <> $"{" -> (forall c g' st', st = (c, g') :: st' -> t <> [c]) ->
    ((exists k, begins k t) -> p = true) -> calm false false (map (fun x => (fst x, false)) st) r -> calm p g st (t :: r).

Definition closing_st (st : list (ascii * bool)) : Prop := Forall (fun x => fst x = ")"%char \/ fst x = "}"%char) st.
Lemma closing_false st : closing_st st -> closing_st (map (fun x => (fst x, false)) st).
Proof. intros H. unfold closing_st. rewrite Forall_map. done. Qed.
Lemma opener_not_begins c : c ∈ separators -> ~ exists k, begins k [c].
Proof.
  intros Hc (k & Hk & [q E]). assert (F : Forall (fun k => 2 <= length k) scope_keywords) by (eapply bool_decide_unpack; vm_compute; exact Logic.I).
  rewrite Forall_forall in F. specialize (F k Hk). apply (f_equal length) in E. rewrite app_length in E. cbn in E. lia.
Qed.

(** *** What it means for the scopes found *)
Lemma spelled_line l : spelled l -> match l with [] => True | (t, _) :: _ => $"//" `prefix_of` t -> count_nl t = 0%Z end.
Proof.
  intros Sp. destruct Sp as [|c ts1 Hc Sp|w ts1 Gw Aw Sp|d u ts1 Nd W Sp|b k0 ts1 Nb Sp]; [done|..].
  + intros [q E]. discriminate E.
  + intros [q ->]. destruct Gw as (_ & _ & A & _). exfalso. by apply (A [] q).
  + intros O. exfalso. apply Nd. apply (opener_inj d DLine u); [by apply closed_opener, W|done].
  + intros _. apply count_nl_none. intros H. apply elem_of_app in H as [H|H]; [|done]. revert H. eapply bool_decide_unpack. vm_compute. exact Logic.I.
Qed.
Lemma spelled_cut t k ts : spelled ((t, k) :: ts) -> (exists d, cut_off d t) -> count_nl t = 0%Z.
Proof.
  intros Sp [d C]. destruct (decide (d = DLine)) as [-> |N].
  - apply (spelled_line _ Sp), C.
  - exfalso. apply spelled_token' in Sp as (_ & _ & Nc). apply Nc. exists d. by split.
Qed.
Definition flags (n : Z) : brackets -> list (ascii * bool) -> Prop := Forall2 (fun x y => fst x = fst y /\ (snd y = true -> snd x = n)).
Lemma flags_down n m st fl : flags n st fl -> flags m st (map (fun x => (fst x, false)) fl).
Proof. intros H. unfold flags. apply Forall2_fmap_r. eapply Forall2_impl; [exact H|]. cbn. intros x y [-> _]. split; [done|]. discriminate. Qed.
Lemma calm_scan ts : forall n b st s p g fl prev, scan n b st s ts -> spelled (map text_kind ts) -> calm p g fl (map fst (map text_kind ts)) -> closers st -> flags n st fl ->
  (p = true -> prev = n) -> (g = true -> b = n) -> tpieces prev ts ts [].
Proof.
  induction ts as [|[[m t] k] ts IH]; intros n b st s p g fl prev Sc Sp Cm Cl Fl Hp Hg; [constructor|].
  remember ((m, t, k) :: ts) as tss eqn:Ets. destruct Sc as [|n b st s t0 k0 r m0 b' st' ts0 T L B Sc]; [done|]. injection Ets as -> -> -> ->.
  change (spelled ((t, k) :: map text_kind ts)) in Sp. change (calm p g fl (t :: map fst (map text_kind ts))) in Cm. pose proof (spelled_cut _ _ _ Sp) as Ct. apply spelled_tail in Sp.
  destruct L as (L1 & L2 & L3). pose proof (bracket_closers _ _ _ _ _ _ B Cl) as Cl'.
  assert (Lm : t <> $"(" -> t <> $"{" -> m = n).
  { intros N1 N2. destruct (Z.eq_dec m n) as [|N]; [done|]. exfalso. apply N. apply L3; [|done|done]. intros X. apply N. rewrite (L1 X), (Ct X). lia. }
  assert (Go : forall p' g' fl', calm p' g' fl' (map fst (map text_kind ts)) -> flags (n + count_nl t) st' fl' -> (p' = true -> m = n + count_nl t)%Z -> (g' = true -> b' = n + count_nl t)%Z ->
     ((exists k, begins k t) -> p = true /\ m = n) -> tpieces prev ((m, t, k) :: ts) ((m, t, k) :: ts) []).
  { intros p' g' fl' Cm' Fl' Hp' Hg' Hb. apply tp_inside; [|unfold tline; cbn [fst]; by apply (IH _ _ _ _ p' g' fl' m Sc)].
    unfold tline. cbn [fst snd]. intros [N K]. destruct (Hb K) as [Ep ->]. by apply N; symmetry; apply Hp. }
  remember (t :: map fst (map text_kind ts)) as xs eqn:Exs. clear IH.
  destruct Cm as [p g fl|p g fl o e r0 Ho Cm|p g fl c g' r0 Cm|p g fl t' r0 Wd Bg Cm|p g fl t' r0 Nw N1 N2 Nc Bg Nl Cm|p g fl t' r0 Nw N1 N2 Nc Bg Cm]; [done|injection Exs as <- ->|injection Exs as <- ->|injection Exs as -> ->..].
  - assert (E : b' = n /\ st' = (e, b) :: st).
    { apply elem_of_cons in Ho as [Ho|Ho]; [|apply elem_of_list_singleton in Ho]; injection Ho as -> ->; eapply bracket_unique; [exact Cl|exact B|constructor|exact Cl|exact B|constructor]. }
    assert (O : [o] = $"(" \/ [o] = $"{") by (apply elem_of_cons in Ho as [Ho|Ho]; [|apply elem_of_list_singleton in Ho]; injection Ho as -> _; auto).
    assert (Z0 : count_nl [o] = 0%Z) by (destruct O as [-> | ->]; reflexivity). rewrite Z0, Z.add_0_r in *.
    destruct E as [-> ->]. apply (Go g true ((e, g) :: fl)); [done|by constructor|intros Eg; rewrite (L2 O); auto|done|].
    intros K. exfalso. revert K. apply opener_not_begins. destruct O as [O|O]; injection O as ->; eapply bool_decide_unpack; vm_compute; exact Logic.I.
  - destruct st as [|[c0 b0] st]; [by apply Forall2_nil_inv_l in Fl|]. apply Forall2_cons in Fl as [[Ec Eb] Fl]. cbn [fst snd] in Ec, Eb. subst c0.
    pose proof Cl as Cl0. apply Forall_cons in Cl0 as [Hc _]. cbn [fst] in Hc.
    destruct (bracket_unique _ _ _ _ _ _ _ _ Cl B (bs_close n b ((c, b0) :: st) c b0 st eq_refl)) as [-> ->].
    assert (Z0 : count_nl [c] = 0%Z) by (destruct Hc as [-> | ->]; reflexivity). rewrite Z0, Z.add_0_r in *.
    apply (Go true g' fl); [done|done|intros _; apply Lm; destruct Hc as [-> | ->]; discriminate|done|].
    intros K. exfalso. revert K. apply opener_not_begins. by apply closer_sep.
  - assert (Z0 : count_nl t = 0%Z).
    { destruct (Z.eq_dec (count_nl t) 0%Z) as [|N]; [done|exfalso]. destruct T as [c r Hc|w r Nw Hw _|d t r Nd Sh|t r Sh|d t C].
      - by apply (proj2 Wd c).
      - apply N, count_nl_none. intros H. apply elem_of_list_split in H as (w1 & w2 & E). destruct (Hw _ _ _ E) as [X _]. apply X. eapply bool_decide_unpack. vm_compute. exact Logic.I.
      - apply (proj1 Wd). exists d. apply closed_opener. apply Sh.
      - apply (proj1 Wd). exists DLine. pose proof (shortest_line_no_nl _ _ Sh) as Nn. destruct Sh as (_ & Cl0 & _). apply line_closed in Cl0 as [b0 ->]; [by exists b0|done].
      - apply (proj1 Wd). exists d. apply C. }
    rewrite Z0, Z.add_0_r in *. destruct (bracket_unique _ _ _ _ _ _ _ _ Cl B (bs_word n b st t Wd)) as [-> ->].
    destruct lparen_no_word as [P1 P2]. assert (Em : m = n) by (apply Lm; intros ->; done).
    apply (Go true true fl); [done|done|done|done|]. intros K. split; [by apply Bg|done].
  - rewrite Nl, Z.add_0_r in *. assert (Em : m = n) by (by apply Lm).
    assert (B2 : bracket_step n b st t b st).
    { apply bs_other; [done..|]. intros c b0 st0 ->. destruct fl as [|[c1 g1] fl]; [by apply Forall2_nil_inv_r in Fl|]. apply Forall2_cons in Fl as [[Ec _] _]. cbn in Ec. subst c1. by eapply Nc. }
    destruct (bracket_unique _ _ _ _ _ _ _ _ Cl B B2) as [-> ->]. apply (Go true g fl); [done|done|done|done|]. intros K. split; [by apply Bg|done].
  - assert (Em : m = n) by (by apply Lm).
    assert (B2 : bracket_step n b st t b st).
    { apply bs_other; [done..|]. intros c b0 st0 ->. destruct fl as [|[c1 g1] fl]; [by apply Forall2_nil_inv_r in Fl|]. apply Forall2_cons in Fl as [[Ec _] _]. cbn in Ec. subst c1. by eapply Nc. }
    destruct (bracket_unique _ _ _ _ _ _ _ _ Cl B B2) as [-> ->]. apply (Go false false (map (fun x => (fst x, false)) fl)); [done|by eapply flags_down|done|done|]. intros K. split; [by apply Bg|done].
Qed.
Lemma calm_pieces text ts : tokens text ts -> spelled (map text_kind ts) -> calm true true [] (map fst (map text_kind ts)) ->
  (exists t ts', ts = t :: ts' /\ exists k, begins k (snd (fst t))) -> tpieces (-1) ts [] [ts] /\ match ts with [] => True | t :: _ => tline t = 0%Z end.
Proof.
  intros T Sp Cm (t & ts' & -> & Bg).
  pose proof (calm_scan _ 0 0 [] text true true [] 0%Z T Sp Cm ltac:(constructor) ltac:(constructor) ltac:(done) ltac:(done)) as P.
  inversion P as [|? ? ? ? ? N P'|]; subst. assert (E : tline t = 0%Z). { destruct (Z.eq_dec (tline t) 0%Z) as [|X]; [done|]. exfalso. by apply N. }
  split; [|exact E]. apply tp_start; [rewrite E; lia|done|done].
Qed.

(** *** Which tokens are calm *)
Lemma closing_not st (c : ascii) : closing_st st -> c <> ")"%char -> c <> "}"%char -> forall c' g' st', st = (c', g') :: st' -> [c] <> [c'].
Proof. intros C N1 N2 c' g' st' -> [= ->]. apply Forall_cons in C as [C _]. cbn in C. tauto. Qed.
Lemma calm_sep st p g c r : c ∈ separators -> c <> ")"%char -> c <> "}"%char -> c <> "("%char -> c <> "{"%char -> c <> c_nl -> closing_st st ->
  calm true g st r -> calm p g st ([c] :: r).
Proof.
  intros Hc N1 N2 N3 N4 N5 C H. apply cm_other; [by apply sep_no_word|by intros [= ->]|by intros [= ->]|by apply closing_not| | |done].
  - intros K. exfalso. by apply (opener_not_begins c).
  - apply count_nl_none. intros Hx. by apply elem_of_list_singleton in Hx.
Qed.
Lemma calm_nl st p g r : closing_st st -> calm false false (map (fun x => (fst x, false)) st) r -> calm p g st ([c_nl] :: r).
Proof.
  intros C H. apply cm_break; [apply sep_no_word; eapply bool_decide_unpack; vm_compute; exact Logic.I|discriminate|discriminate|by apply closing_not| |done].
  intros K. exfalso. revert K. apply opener_not_begins. eapply bool_decide_unpack. vm_compute. exact Logic.I.
Qed.
Lemma calm_inline c xs : lines false c xs -> forall st r, closing_st st -> calm true true st r -> calm true true st (map fst xs ++ r).
Proof.
  induction 1 as [c|c x ts Hx H IH|c w ts Hw Hs H IH|c o e xs ts Hp Hc Hx IHx H IH|c ts Hl H IH|c t ts Hl Ht H IH]; intros st r C Hr; cbn [map app fst lx]; [done|..|discriminate Hl|discriminate Hl].
  - apply calm_sep; [by apply inline_seps|..|done|by apply IH]; intros ->; revert Hx; eapply bool_decide_unpack; vm_compute; exact Logic.I.
  - apply cm_word; [by apply plain_is_word|done|by apply IH].
  - rewrite map_app, <- app_assoc. cbn [map app fst lx]. unfold bracket_pairs in Hp. rewrite !elem_of_cons, elem_of_nil in Hp.
    assert (Q : (o, e) ∈ [("("%char, ")"%char); ("{"%char, "}"%char)] \/ (o = "["%char /\ e = "]"%char)) by (rewrite !elem_of_cons, elem_of_nil; destruct Hp as [E|[E|[E|[]]]]; injection E as -> ->; tauto).
    destruct Q as [Q|[-> ->]].
    + apply (cm_open _ _ _ o e); [done|]. apply IHx.
      * constructor; [|done]. cbn. apply elem_of_cons in Q as [Q|Q]; [|apply elem_of_list_singleton in Q]; injection Q as _ ->; tauto.
      * apply cm_close. by apply IH.
    + assert (Sb : forall c, c ∈ ["["%char; "]"%char] -> c ∈ separators) by (apply in_seps; reflexivity).
      apply calm_sep; [apply Sb; left|discriminate..|done|]. apply IHx; [done|]. apply calm_sep; [apply Sb; right; left|discriminate..|done|]. by apply IH.
Qed.
(** Less may be known. *)
Lemma calm_first p g st t ts : calm p g st (t :: ts) -> (~ exists k, begins k t) -> forall p', calm p' g st (t :: ts).
Proof.
  remember (t :: ts) as xs eqn:E. intros H N p'. destruct H as [p g st|p g st o e r Ho H|p g st c g' r H|p g st u r W B H|p g st u r W N1 N2 N3 B Nl H|p g st u r W N1 N2 N3 B H]; [done|..]; injection E as <- <-.
  - by apply (cm_open _ _ _ o e).
  - by apply cm_close.
  - apply cm_word; [done|by intros K|done].
  - apply cm_other; [done..|by intros K|done|done].
  - apply cm_break; [done..|by intros K|done].
Qed.
(** Whatever is known of the line, if the token before is on it. *)
Definition late (ts : list str) : Prop := forall g st, closing_st st -> calm true g st ts.
Lemma calm_code r : (forall p g st, closing_st st -> calm p g st r) -> forall ts xs p g st, closing_st st ->
  (forall ys t zs, ts = ys ++ t :: zs -> (exists k, begins k t) -> shielded (xs ++ ys)) ->
  (shielded xs -> p = true) -> ((exists ys w, xs = ys ++ [w] /\ is_word w) -> g = true) -> calm p g st (ts ++ r).
Proof.
  intros Hr. induction ts as [|t ts IH]; intros xs p g st C Q I1 I2; [by apply Hr|]. cbn [app].
  assert (Q' : forall ys t0 zs, ts = ys ++ t0 :: zs -> (exists k, begins k t0) -> shielded ((xs ++ [t]) ++ ys)).
  { intros ys t0 zs -> K. rewrite <- app_assoc. cbn [app]. by apply (Q (t :: ys) t0 zs). }
  assert (Bg : (exists k, begins k t) -> p = true). { intros K. apply I1. specialize (Q [] t ts eq_refl K). by rewrite app_nil_r in Q. }
  clear Q. specialize (IH (xs ++ [t])).
  assert (Lw : ~ is_word t -> forall g', (exists ys w, xs ++ [t] = ys ++ [w] /\ is_word w) -> g' = true).
  { intros Nw g' (ys & w & E & W). apply app_inj_tail in E as [_ <-]. done. }
  assert (Op : (exists o e, (o, e) ∈ [("("%char, ")"%char); ("{"%char, "}"%char)] /\ t = [o]) \/ (t <> $"(" /\ t <> $"{")).
  { destruct (decide (t = $"(")) as [-> |]; [left; exists "("%char, ")"%char; split; [left|done]|]. destruct (decide (t = $"{")) as [-> |]; [left; exists "{"%char, "}"%char; split; [right; left|done]|by right]. }
  destruct Op as [(o & e & Ho & ->)|[N1 N2]].
  - assert (Hc : o ∈ separators /\ (e = ")"%char \/ e = "}"%char) /\ (o = "("%char \/ o = "{"%char)).
    { apply elem_of_cons in Ho as [Ho|Ho]; [|apply elem_of_list_singleton in Ho]; injection Ho as -> ->; (split; [eapply bool_decide_unpack; vm_compute; exact Logic.I|tauto]). }
    destruct Hc as (Hc & He & Hoo). apply (cm_open _ _ _ o e); [done|]. apply IH; [by constructor|done| |by apply Lw, sep_no_word].
    intros [(ys & c & E & _ & Nc)|(ys & w & o' & E & Wd & _)].
    + apply app_inj_tail in E as [_ [= ->]]. exfalso. apply Nc. rewrite !elem_of_cons. destruct Hoo as [-> | ->]; tauto.
    + apply I2. exists ys, w. split; [|done]. change (ys ++ [w; o']) with (ys ++ [w] ++ [o']) in E. rewrite app_assoc in E. by apply app_inj_tail in E as [-> _].
  - assert (Tc : (exists x st', st = x :: st' /\ t = [fst x]) \/ forall c g' st', st = (c, g') :: st' -> t <> [c]).
    { destruct st as [|[c g0] st]; [by right|]. destruct (decide (t = [c])) as [-> |N]; [left; by eexists _, _|right]. intros c' g' st' [= <- _ _]. done. }
    destruct Tc as [([c g'] & st' & -> & ->)|Nc].
    + apply Forall_cons in C as [Hc C]. cbn [fst] in Hc |- *. apply cm_close. apply IH; [done|done|done|]. apply Lw, sep_no_word, closer_sep, Hc.
    + destruct (word_dec t) as [Wd|Nw]; [by apply cm_word; [..|apply IH]|].
      destruct (Z.eq_dec (count_nl t) 0%Z) as [Z0|Z0].
      * apply cm_other; [done..|]. apply IH; [done|done|done|by apply Lw].
      * apply cm_break; [done..|]. apply IH; [by apply closing_false|done| |by apply Lw].
        intros [(ys & c & E & _ & Nn)|(ys & w & o' & E & Wd & Ho)]; exfalso.
        -- apply app_inj_tail in E as [_ ->]. apply Z0, count_nl_none. intros H. apply elem_of_list_singleton in H as <-. apply Nn. by left.
        -- change (ys ++ [w; o']) with (ys ++ [w] ++ [o']) in E. rewrite app_assoc in E. apply app_inj_tail in E as [_ ->]. rewrite !elem_of_cons, elem_of_nil in Ho. tauto.
Qed.
Lemma calm_silent ts : Forall (fun t => ~ exists k, begins k t) ts -> forall p g st, closing_st st -> calm p g st ts.
Proof.
  intros F p g st C. rewrite <- (app_nil_r ts). destruct ts as [|t0 ts0] eqn:E; [constructor|]. rewrite <- E in *. clear E t0 ts0.
  revert p g st C. induction F as [|t ts N F IH]; intros p g st C; [constructor|]. cbn [app].
  assert (Op : (exists o e, (o, e) ∈ [("("%char, ")"%char); ("{"%char, "}"%char)] /\ t = [o]) \/ (t <> $"(" /\ t <> $"{")).
  { destruct (decide (t = $"(")) as [-> |]; [left; exists "("%char, ")"%char; split; [left|done]|]. destruct (decide (t = $"{")) as [-> |]; [left; exists "{"%char, "}"%char; split; [right; left|done]|by right]. }
  destruct Op as [(o & e & Ho & ->)|[N1 N2]].
  - apply (cm_open _ _ _ o e); [done|]. apply IH. constructor; [|done]. cbn. apply elem_of_cons in Ho as [Ho|Ho]; [|apply elem_of_list_singleton in Ho]; injection Ho as _ ->; tauto.
  - assert (Tc : (exists x st', st = x :: st' /\ t = [fst x]) \/ forall c g' st', st = (c, g') :: st' -> t <> [c]).
    { destruct st as [|[c g0] st]; [by right|]. destruct (decide (t = [c])) as [-> |Nn]; [left; by eexists _, _|right]. intros c' g' st' [= <- _ _]. done. }
    destruct Tc as [([c g'] & st' & -> & ->)|Nc].
    + apply Forall_cons in C as [Hc C]. cbn [fst] in Hc |- *. apply cm_close. by apply IH.
    + destruct (word_dec t) as [Wd|Nw]; [apply cm_word; [done|by intros K|by apply IH]|].
      apply cm_break; [done..|by intros K|]. apply IH. by apply closing_false.
Qed.
