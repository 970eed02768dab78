From Coq Require Import ZifyN ZifyNat.
From Verif Require Import GoStr SpecUtf.
Ltac nlia := Z.div_mod_to_equations; lia.

Lemma n_lt c : (N_of_ascii c < 256)%N.
Proof. apply N_ascii_bounded. Qed.
Lemma in_range_true lo hi c : in_range lo hi c = true <-> (lo <= N_of_ascii c <= hi)%N.
Proof. unfold in_range. rewrite andb_true_iff, N.leb_le, N.leb_le. done. Qed.
Lemma in_range_iff lo hi c : in_range lo hi c = bool_decide (lo <= N_of_ascii c <= hi)%N.
Proof. apply eq_true_iff_eq. rewrite in_range_true, bool_decide_eq_true. done. Qed.
(** What the lead bytes are. *)
Lemma lead_spec c sz lo hi : lead c = Some (sz, lo, hi) -> let n := N_of_ascii c in
  sz = 2 /\ (194 <= n <= 223)%N /\ lo = 128%N /\ hi = 191%N \/
  sz = 3 /\ (224 <= n <= 239)%N /\ lo = (if n =? 224 then 160 else 128)%N /\ hi = (if n =? 237 then 159 else 191)%N \/
  sz = 4 /\ (240 <= n <= 244)%N /\ lo = (if n =? 240 then 144 else 128)%N /\ hi = (if n =? 244 then 143 else 191)%N.
Proof.
  unfold lead. cbv zeta. set (n := N_of_ascii c). clearbody n.
  repeat match goal with |- context [(?a <? ?b)%N] => destruct (N.ltb_spec a b) | |- context [(?a <=? ?b)%N] => destruct (N.leb_spec a b) | |- context [(?a =? ?b)%N] => destruct (N.eqb_spec a b) end;
  intros E; try discriminate E; injection E as <- <- <-; subst; lia.
Qed.
Lemma lead_none c : lead c = None <-> (N_of_ascii c < 194 \/ 244 < N_of_ascii c)%N.
Proof.
  unfold lead. cbv zeta. set (n := N_of_ascii c). clearbody n.
  repeat match goal with |- context [(?a <? ?b)%N] => destruct (N.ltb_spec a b) | |- context [(?a <=? ?b)%N] => destruct (N.leb_spec a b) | |- context [(?a =? ?b)%N] => destruct (N.eqb_spec a b) end;
  (split; [intros E; first [discriminate E|lia]|intros E; first [reflexivity|lia]]).
Qed.
Lemma lead_some c : (194 <= N_of_ascii c <= 244)%N -> exists sz lo hi, lead c = Some (sz, lo, hi).
Proof. intros H. destruct (lead c) as [[[sz lo] hi]|] eqn:E; [eauto|]. apply lead_none in E. lia. Qed.
Lemma width_of p cp s : encodes p cp -> rune_width (p ++ s) = length p.
Proof.
  intros [Sc E]. unfold encode in E. unfold scalar in Sc.
  destruct (N.ltb_spec cp 0x80); [|destruct (N.ltb_spec cp 0x800); [|destruct (N.ltb_spec cp 0x10000)]].
  - destruct p as [|c [|]]; [done| |done]. injection E as E. cbn [app rune_width]. rewrite (proj2 (lead_none c)); [done|]. left. lia.
  - destruct p as [|c [|d [|]]]; [done|done| |done]. injection E as E1 E2. cbn [app rune_width].
    destruct (lead_some c) as (sz & lo & hi & El); [nlia|]. rewrite El. apply lead_spec in El. cbv zeta in El. destruct El as [(-> & ? & -> & ->)|[(-> & ? & _)|(-> & ? & _)]]; [|nlia|nlia].
    rewrite in_range_iff, bool_decide_eq_true_2 by nlia. done.
  - destruct p as [|c [|d [|e [|]]]]; [done|done|done| |done]. injection E as E1 E2 E3. cbn [app rune_width].
    destruct (lead_some c) as (sz & lo & hi & El); [nlia|]. rewrite El. apply lead_spec in El. cbv zeta in El. destruct El as [(-> & ? & _)|[(-> & ? & -> & ->)|(-> & ? & _)]]; [nlia| |nlia].
    rewrite in_range_iff, bool_decide_eq_true_2.
    2:{ destruct (N.eqb_spec (N_of_ascii c) 224), (N.eqb_spec (N_of_ascii c) 237); nlia. }
    unfold is_cont. rewrite in_range_iff, bool_decide_eq_true_2 by nlia. done.
  - destruct p as [|c [|d [|e [|g [|]]]]]; [done|done|done|done| |done]. injection E as E1 E2 E3 E4. cbn [app rune_width].
    destruct (lead_some c) as (sz & lo & hi & El); [nlia|]. rewrite El. apply lead_spec in El. cbv zeta in El. destruct El as [(-> & ? & _)|[(-> & ? & _)|(-> & ? & -> & ->)]]; [nlia|nlia|].
    rewrite in_range_iff, bool_decide_eq_true_2.
    2:{ destruct (N.eqb_spec (N_of_ascii c) 240), (N.eqb_spec (N_of_ascii c) 244); nlia. }
    unfold is_cont. rewrite !in_range_iff, !bool_decide_eq_true_2 by nlia. done.
Qed.
Lemma encode_of c s : rune_width (c :: s) <> 1 -> exists p cp t, encodes p cp /\ c :: s = p ++ t.
Proof.
  cbn [rune_width]. destruct (lead c) as [[[sz lo] hi]|] eqn:El; [|done]. apply lead_spec in El. cbv zeta in El. destruct s as [|d s]; [done|]. rewrite in_range_iff. case_bool_decide as Hd; [|done]. cbn [negb].
  destruct El as [(-> & Hn & -> & ->)|[(-> & Hn & -> & ->)|(-> & Hn & -> & ->)]]; cbn [Nat.eqb].
  - intros _. exists [c; d], ((N_of_ascii c - 192) * 64 + (N_of_ascii d - 128))%N, s. split; [|done]. split; [unfold scalar; lia|]. unfold encode.
    set (cp := ((N_of_ascii c - 192) * 64 + (N_of_ascii d - 128))%N). destruct (N.ltb_spec cp 0x80); [unfold cp in *; lia|]. destruct (N.ltb_spec cp 0x800); [|unfold cp in *; lia].
    cbn [map]. repeat f_equal; unfold cp; nlia.
  - destruct s as [|e s]; [done|]. unfold is_cont. rewrite in_range_iff. case_bool_decide as He; [|done]. cbn [negb]. intros _.
    set (cp := ((N_of_ascii c - 224) * 4096 + (N_of_ascii d - 128) * 64 + (N_of_ascii e - 128))%N). exists [c; d; e], cp, s. split; [|done].
    assert (Hs : scalar cp /\ (0x800 <= cp < 0x10000)%N) by (unfold scalar, cp; destruct (N.eqb_spec (N_of_ascii c) 224), (N.eqb_spec (N_of_ascii c) 237); lia).
    split; [apply Hs|]. unfold encode. destruct (N.ltb_spec cp 0x80); [lia|]. destruct (N.ltb_spec cp 0x800); [lia|]. destruct (N.ltb_spec cp 0x10000); [|lia].
    cbn [map]. repeat f_equal; unfold cp in *; destruct (N.eqb_spec (N_of_ascii c) 224), (N.eqb_spec (N_of_ascii c) 237); nlia.
  - destruct s as [|e s]; [done|]. unfold is_cont. rewrite in_range_iff. case_bool_decide as He; [|done]. cbn [negb]. destruct s as [|g s]; [done|]. rewrite in_range_iff. case_bool_decide as Hg; [|done]. intros _.
    set (cp := ((N_of_ascii c - 240) * 262144 + (N_of_ascii d - 128) * 4096 + (N_of_ascii e - 128) * 64 + (N_of_ascii g - 128))%N). exists [c; d; e; g], cp, s. split; [|done].
    assert (Hs : scalar cp /\ (0x10000 <= cp)%N) by (unfold scalar, cp; destruct (N.eqb_spec (N_of_ascii c) 240), (N.eqb_spec (N_of_ascii c) 244); lia).
    split; [apply Hs|]. unfold encode. destruct (N.ltb_spec cp 0x80); [lia|]. destruct (N.ltb_spec cp 0x800); [lia|]. destruct (N.ltb_spec cp 0x10000); [lia|].
    cbn [map]. repeat f_equal; unfold cp in *; destruct (N.eqb_spec (N_of_ascii c) 240), (N.eqb_spec (N_of_ascii c) 244); nlia.
Qed.
Lemma encodes_pos p cp : encodes p cp -> 0 < length p.
Proof. intros [_ E]. destruct p; [|cbn; lia]. unfold encode in E. repeat case_match; done. Qed.
Lemma starts_skip p : forall i k s, range_pos_from i (length p + k) (p ++ s) = range_pos_from (i + length p) k s.
Proof.
  induction p as [|c p IH]; intros i k s; cbn [app length plus]; [by rewrite Nat.add_0_r|]. cbn [range_pos_from]. rewrite IH. f_equal. lia.
Qed.
Lemma starts_ok i s js : rune_starts i s js <-> js = range_pos_from i 0 s.
Proof.
  split.
  - induction 1 as [i|i p cp s js He R IH|i c s js N R IH]; [done| |].
    + pose proof (encodes_pos _ _ He) as Lp. pose proof (width_of _ _ s He) as W. destruct p as [|c p]; [cbn in Lp; lia|]. cbn [app] in *. cbn [range_pos_from]. rewrite W. cbn [length].
      replace (S (length p) - 1) with (length p + 0) by lia. rewrite starts_skip. rewrite IH. cbn [length]. do 2 f_equal. lia.
    + cbn [range_pos_from]. destruct (decide (rune_width (c :: s) = 1)) as [->|W]; [by rewrite IH|]. destruct (encode_of c s W) as (p & cp & t & He & E). exfalso. apply (N p cp He). by exists t.
  - intros ->. assert (G : forall n i s, length s <= n -> rune_starts i s (range_pos_from i 0 s)); [|by apply (G (length s))].
    clear i s. induction n as [|n IH]; intros i s L; [destruct s; [constructor|cbn in L; lia]|]. destruct s as [|c s]; [constructor|]. cbn [length] in L.
    destruct (decide (rune_width (c :: s) = 1)) as [W|W].
    + cbn [range_pos_from]. rewrite W. destruct (decide (N_of_ascii c < 128)%N) as [A|A].
      * change (c :: s) with ([c] ++ s). apply (rs_char i [c] (N_of_ascii c)); [|cbn [length]; replace (i + 1) with (S i) by lia; apply IH; lia].
        split; [unfold scalar; lia|]. unfold encode. destruct (N.ltb_spec (N_of_ascii c) 0x80); [done|lia].
      * apply rs_byte; [|apply IH; lia]. intros p cp He [t E]. pose proof (width_of _ _ t He) as W2. rewrite <- E, W in W2.
        destruct p as [|d [|]]; [done| |done]. injection E as -> ->. destruct He as [Sc He]. unfold encode in He. destruct (N.ltb_spec cp 0x80); [injection He as He; lia|]. repeat case_match; done.
    + destruct (encode_of c s W) as (p & cp & t & He & E). pose proof (encodes_pos _ _ He) as Lp. pose proof (width_of _ _ t He) as W2. destruct p as [|d p]; [cbn in Lp; lia|]. 
      injection E as -> ->. cbn [app] in *. cbn [range_pos_from]. rewrite W2. cbn [length]. replace (S (length p) - 1) with (length p + 0) by lia. rewrite starts_skip.
      change (d :: p ++ t) with ((d :: p) ++ t). apply (rs_char i (d :: p) cp); [done|]. cbn [length]. replace (i + S (length p)) with (S i + length p) by lia. apply IH. rewrite app_length in L. lia.
Qed.
Lemma byte_encoded c : encodes (string_of_byte c) (N_of_ascii c).
Proof.
  pose proof (n_lt c) as L. split; [unfold scalar; lia|]. unfold string_of_byte, encode. destruct (N.ltb_spec (N_of_ascii c) 0x80); [done|]. destruct (N.ltb_spec (N_of_ascii c) 0x800); [|lia].
  cbn [map]. rewrite !N_ascii_embedding by nlia. done.
Qed.
