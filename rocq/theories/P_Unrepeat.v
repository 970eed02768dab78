(** C78: AppendUnrepeatable over real slices. *)
From Verif Require Import SpecUnrepeat.

Section P.
Context {T : Type} `{EqDecision T} (zero : T).
Implicit Types (m : list (list T)) (s e : slice).

Lemma put_length xs : forall (a : list T) i, length (put_cells a i xs) = length a.
Proof. induction xs as [|x xs IH]; intros a i; [done|]. cbn [put_cells]. by rewrite IH, insert_length. Qed.
Lemma put_out xs : forall (a : list T) i j, j < i \/ i + length xs <= j -> put_cells a i xs !! j = a !! j.
Proof.
  induction xs as [|x xs IH]; intros a i j L; [done|]. cbn [put_cells length] in *. rewrite IH by lia. apply list_lookup_insert_ne. lia.
Qed.
Lemma put_in xs : forall (a : list T) i k, k < length xs -> i + length xs <= length a -> put_cells a i xs !! (i + k) = xs !! k.
Proof.
  induction xs as [|x xs IH]; intros a i k L La; cbn [length] in *; [lia|]. cbn [put_cells]. destruct k as [|k].
  - rewrite Nat.add_0_r, put_out by lia. apply list_lookup_insert. lia.
  - replace (i + Datatypes.S k) with (Datatypes.S i + k) by lia. rewrite IH by (rewrite ?insert_length; lia). done.
Qed.

Lemma shows_content m s xs : shows m s xs <-> (content m s = xs /\ length xs = sl_len s).
Proof.
  unfold shows, content, cells. split.
  - intros [L F]. split; [|done]. apply list_eq. intros i. destruct (decide (i < sl_len s)) as [Hi|Hi].
    + rewrite lookup_take, lookup_drop by done. destruct (lookup_lt_is_Some_2 xs i) as [x Hx]; [lia|].
      destruct (F i x Hx) as (a & Ea & Ex). rewrite Ea, Hx. done.
    + rewrite !lookup_ge_None_2; [done|lia|]. rewrite take_length. lia.
  - intros [<- L]. split; [done|]. intros i x Hx. assert (Hi : i < sl_len s) by (apply lookup_lt_Some in Hx; lia).
    rewrite lookup_take, lookup_drop in Hx by done. destruct (m !! sl_arr s) as [a|]; [|done]. by exists a.
Qed.
Lemma window_shows m s : window m s -> shows m s (content m s).
Proof.
  intros [L B]. apply shows_content. split; [done|]. unfold content, cells. rewrite take_length, drop_length.
  destruct B as [Z|(a & -> & B)]; [lia|]. simpl. lia.
Qed.
Lemma at_index_ok m s i x : window m s -> content m s !! i = Some x -> at_index m s i = Ok x.
Proof.
  intros W E. unfold at_index. assert (Hi : i < sl_len s) by (apply lookup_lt_Some in E; apply window_shows in W as [L _]; lia).
  apply Nat.ltb_lt in Hi as Hb. rewrite Hb. unfold content in E. rewrite lookup_take, lookup_drop in E by done. by rewrite E.
Qed.

(** What the builtin [append] does, cell by cell. *)
Lemma go_append_spec grow m s e m' r : window m s -> window m e -> go_append zero grow m s e = (m', r) ->
  window m' r /\ content m' r = content m s ++ content m e /\
  (sl_len s + sl_len e <= sl_cap s ->
     r = mkSlice (sl_arr s) (sl_off s) (sl_len s + sl_len e) (sl_cap s) /\ length m' = length m) /\
  (sl_cap s < sl_len s + sl_len e -> sl_arr r = length m /\ (forall i, i < length m -> m' !! i = m !! i)) /\
  (forall i j, i < length m -> ~ spare_cell s (sl_len e) i j -> cell m' i j = cell m i j) /\
  (forall i a, m !! i = Some a -> exists a', m' !! i = Some a' /\ length a' = length a).
Proof.
  intros Ws We E. pose proof (window_shows _ _ Ws) as [Ls Fs]. pose proof (window_shows _ _ We) as [Le Fe].
  unfold go_append in E. destruct (Nat.leb (sl_len s + sl_len e) (sl_cap s)) eqn:Lc; injection E as <- <-.
  - apply Nat.leb_le in Lc. destruct Ws as [Lw B]. destruct (decide (sl_cap s = 0)) as [Z|NZ].
    { assert (Ze : content m e = []) by (apply nil_length_inv; lia). rewrite Ze.
      assert (Em : forall i f, (f = fun a : list T => put_cells a (sl_off s + sl_len s) []) -> alter f i m = m).
      { intros i f ->. cbn [put_cells]. by apply list_alter_id. }
      rewrite (Em _ _ eq_refl). assert (Zs : content m s = []) by (apply nil_length_inv; lia). rewrite Zs.
      split; [split; [cbn; lia|by left]|]. split; [apply nil_length_inv; unfold content; rewrite take_length; cbn; lia|].
      split; [done|]. split; [lia|]. split; [done|]. by eauto. }
    destruct B as [B|(a & Ea & B)]; [done|].
    set (m' := alter _ _ m). set (r := mkSlice _ _ _ _).
    assert (Er : m' !! sl_arr s = Some (put_cells a (sl_off s + sl_len s) (content m e))) by (unfold m'; by rewrite list_lookup_alter, Ea).
    assert (Ne : forall i, i <> sl_arr s -> m' !! i = m !! i) by (intros i D; unfold m'; by apply list_lookup_alter_ne).
    split; [split; [done|right; eexists; split; [exact Er|rewrite put_length; done]]|].
    split.
    { assert (S : shows m' r (content m s ++ content m e)); [|by apply shows_content in S as [-> _]].
      split; [rewrite app_length; cbn [r sl_len]; lia|]. intros i x Hx. eexists. split; [exact Er|]. cbn [r sl_off].
      apply lookup_app_Some in Hx as [Hx|[Hl Hx]].
      - rewrite put_out by (apply lookup_lt_Some in Hx; lia). destruct (Fs i x Hx) as (a' & Ea' & Hx'). congruence.
      - replace (sl_off s + i) with (sl_off s + sl_len s + (i - length (content m s))) by lia. rewrite put_in; [done| |lia]. by apply lookup_lt_Some in Hx. }
    split; [intros _; split; [done|unfold m'; by rewrite alter_length]|]. split; [lia|]. split.
    + intros i j Hi Nc. unfold cell. destruct (decide (i = sl_arr s)) as [->|D]; [|by rewrite Ne].
      rewrite Er, Ea. cbn [mbind option_bind]. apply put_out. rewrite Le. unfold spare_cell in Nc. lia.
    + intros i a' Ha'. destruct (decide (i = sl_arr s)) as [->|D].
      * eexists. split; [exact Er|]. rewrite put_length. congruence.
      * exists a'. by rewrite Ne.
  - apply Nat.leb_gt in Lc. set (need := sl_len s + sl_len e) in *. set (cap := Nat.max need (grow need)).
    set (row := content m s ++ content m e ++ repeat zero (cap - need)).
    assert (En : (m ++ [row]) !! length m = Some row) by (rewrite lookup_app_r, Nat.sub_diag by lia; done).
    assert (Lr : length row = cap) by (unfold row; rewrite !app_length, repeat_length; lia).
    split; [split; [cbn [sl_len sl_cap]; lia|right; exists row; split; [exact En|cbn [sl_off sl_cap]; lia]]|].
    split.
    { unfold content at 1, cells. cbn [sl_arr sl_off sl_len]. rewrite En. cbn [default from_option]. rewrite drop_0. unfold row.
      rewrite app_assoc. apply take_app_alt. rewrite app_length. lia. }
    split; [lia|]. split; [intros _; split; [done|]; intros i Hi; by rewrite lookup_app_l|].
    split; [intros i j Hi _; unfold cell; by rewrite lookup_app_l|].
    intros i a Ha. exists a. split; [|done]. rewrite lookup_app_l; [done|]. by eapply lookup_lt_Some.
Qed.

Definition last_is (xs : list T) (x : T) : Prop := exists xs0, xs = xs0 ++ [x].
Lemma window_tail m e y rest : window m e -> content m e = y :: rest ->
  exists e', tail_slice e = Ok e' /\ window m e' /\ content m e' = rest /\ sl_len e = Datatypes.S (sl_len e').
Proof.
  intros W Ec. pose proof (window_shows _ _ W) as [Le _]. rewrite Ec in Le. cbn [length] in Le. unfold tail_slice.
  assert (Hb : Nat.ltb 0 (sl_len e) = true) by (apply Nat.ltb_lt; lia). rewrite Hb. eexists. split; [reflexivity|].
  destruct W as [L B]. split; [split; [cbn [sl_len sl_cap]; lia|]|split].
  - destruct B as [Z|(a & Ea & B)]; [lia|]. right. exists a. split; [done|]. cbn [sl_off sl_cap]. lia.
  - unfold content, cells in *. cbn [sl_arr sl_off sl_len]. rewrite <- Le in *. cbn [pred].
    set (a := default [] (m !! sl_arr e)) in *. apply (f_equal (drop 1)) in Ec. cbn [drop] in Ec. rewrite drop_0 in Ec.
    etransitivity; [|exact Ec]. rewrite skipn_firstn_comm, drop_drop. f_equal; [lia|]. f_equal. lia.
  - cbn [sl_len]. lia.
Qed.

(** The three ways a call can end. *)
Lemma run_cases grow m s e : window m s -> window m e ->
  (content m e = [] /\ append_unrepeatable_slices zero grow m s e = Ok (m, s)) \/
  (content m e <> [] /\ content m s = [] /\ append_unrepeatable_slices zero grow m s e = Ok (m, e)) \/
  (exists a x y b e', content m s = a ++ [x] /\ content m e = y :: b /\ window m e' /\
     ((x = y /\ content m e' = b) \/ (x <> y /\ e' = e)) /\
     append_unrepeatable_slices zero grow m s e = Ok (go_append zero grow m s e')).
Proof.
  intros Ws We. pose proof (window_shows _ _ Ws) as [Ls _]. pose proof (window_shows _ _ We) as [Le _]. unfold append_unrepeatable_slices.
  destruct (content m e) as [|y b] eqn:Ee; cbn [length] in Le; rewrite <- Le.
  { left. done. }
  cbn [Nat.eqb]. right. destruct (content m s) as [|x0 l0] eqn:Es using rev_ind.
  { left. cbn [length] in Ls. rewrite <- Ls. done. }
  clear IHl0. right. rewrite app_length in Ls. cbn [length] in Ls. rewrite <- Ls. replace (Nat.eqb (length l0 + 1) 0) with false by (symmetry; apply Nat.eqb_neq; lia).
  replace (length l0 + 1 - 1) with (length l0) by lia.
  rewrite (at_index_ok m s (length l0) x0) by (first [done|rewrite Es; by apply list_lookup_middle]). cbn [res_bind].
  rewrite (at_index_ok m e 0 y) by (first [done|by rewrite Ee]). cbn [res_bind]. case_bool_decide as D.
  - destruct (window_tail m e y b We Ee) as (e' & -> & We' & Ec & _). exists l0, x0, y, b, e'. cbn [res_bind]. split; [done|]. split; [done|]. split; [done|]. split; [by left|done].
  - exists l0, x0, y, b, e. split; [done|]. split; [done|]. split; [done|]. split; [by right|done].
Qed.

Lemma run_ok grow m s e m' r : window m s -> window m e -> append_unrepeatable_slices zero grow m s e = Ok (m', r) ->
  window m' r /\ joined (content m s) (content m e) (content m' r) /\
  (content m e = [] -> m' = m /\ r = s) /\ (content m e <> [] -> content m s = [] -> m' = m /\ r = e) /\
  (content m s <> [] -> content m e <> [] ->
     (sl_len r <= sl_cap s -> sl_arr r = sl_arr s /\ sl_off r = sl_off s /\ sl_cap r = sl_cap s /\ length m' = length m) /\
     (sl_cap s < sl_len r -> sl_arr r = length m /\ (forall i, i < length m -> m' !! i = m !! i))) /\
  (forall i j, i < length m -> ~ spare_cell s (sl_len r - sl_len s) i j -> cell m' i j = cell m i j) /\
  (forall i a, m !! i = Some a -> exists a', m' !! i = Some a' /\ length a' = length a).
Proof.
  intros Ws We E. destruct (run_cases grow m s e Ws We) as [[Ee R]|[(Ne & Es & R)|(a & x & y & b & e' & Es & Ee & We' & D & R)]]; rewrite R in E.
  - injection E as <- <-. rewrite Ee. split; [done|]. split; [constructor|]. split; [done|]. split; [done|]. split; [done|]. split; [done|]. by eauto.
  - injection E as <- <-. rewrite Es. split; [done|]. split; [constructor|]. split; [done|]. split; [done|]. split; [done|]. split; [done|]. by eauto.
  - destruct (go_append zero grow m s e') as [m1 r1] eqn:G. injection E as <- <-.
    destruct (go_append_spec grow m s e' m1 r1 Ws We' G) as (Wr & Ec & Fit & Gr & Keep & Len).
    pose proof (window_shows _ _ Ws) as [Ls _]. pose proof (window_shows _ _ We') as [Le _]. pose proof (window_shows _ _ Wr) as [Lr _].
    rewrite Ec, app_length in Lr. rewrite Es, Ee. split; [done|]. split.
    { rewrite Ec, Es, <- app_assoc. destruct D as [[<- ->]|[Nx ->]]; [constructor|rewrite Ee; by constructor]. }
    split; [done|]. split; [intros _ F; by destruct a|]. split.
    { intros _ _. split.
      - intros L. destruct Fit as [-> Lm]; [lia|]. done.
      - intros L. apply Gr. lia. }
    split; [|exact Len]. intros i j Hi Nc. apply Keep; [done|]. by replace (sl_len e') with (sl_len r1 - sl_len s) by lia.
Qed.

Lemma shows_cells m m' s xs : shows m s xs -> (forall i, i < sl_len s -> cell m' (sl_arr s) (sl_off s + i) = cell m (sl_arr s) (sl_off s + i)) ->
  shows m' s xs.
Proof.
  intros [L F] C. split; [done|]. intros i x Hx. destruct (F i x Hx) as (a & Ea & Ex).
  assert (Hi : i < sl_len s) by (rewrite <- L; by eapply lookup_lt_Some). specialize (C i Hi). unfold cell in C. rewrite Ea in C. cbn [mbind option_bind] in C.
  rewrite Ex in C. destruct (m' !! sl_arr s) as [a'|]; [|done]. by exists a'.
Qed.
Lemma shows_arr m s xs : shows m s xs -> 0 < sl_len s -> sl_arr s < length m.
Proof.
  intros [L F] Z. destruct xs as [|x xs]; cbn [length] in L; [lia|]. destruct (F 0 x eq_refl) as (a & Ea & _). by eapply lookup_lt_Some.
Qed.

(** ** The theorems *)

(** The call never panics, and the result shows the two lists joined, whatever
    arrays the two slices share. *)
Theorem C78_contents : forall grow m s e xs ys, window m s -> window m e -> shows m s xs -> shows m e ys ->
  exists m' r zs, append_unrepeatable_slices zero grow m s e = Ok (m', r) /\
    window m' r /\ shows m' r zs /\ joined xs ys zs.
Proof.
  intros grow m s e xs ys Ws We [<- _]%shows_content [<- _]%shows_content.
  assert (G : exists m' r, append_unrepeatable_slices zero grow m s e = Ok (m', r)).
  { destruct (run_cases grow m s e Ws We) as [[_ R]|[(_ & _ & R)|(a & x & y & b & e' & _ & _ & _ & _ & R)]]; [by eauto..|].
    rewrite R. destruct (go_append zero grow m s e') as [m' r]. by eauto. }
  destruct G as (m' & r & E). pose proof (run_ok _ _ _ _ _ _ Ws We E) as (Wr & J & _).
  exists m', r, (content m' r). split; [done|]. split; [done|]. split; [by apply window_shows|done].
Qed.

(** The only cells that can change are the spare cells right behind the elements
    of the first slice, as many as the result is longer; arrays keep their length,
    every slice stays within its array. *)
Theorem C78_frame : forall grow m s e m' r, window m s -> window m e ->
  append_unrepeatable_slices zero grow m s e = Ok (m', r) ->
  (forall i j, i < length m -> ~ spare_cell s (sl_len r - sl_len s) i j -> cell m' i j = cell m i j) /\
  (forall i a, m !! i = Some a -> exists a', m' !! i = Some a' /\ length a' = length a) /\
  (forall s', window m s' -> window m' s').
Proof.
  intros grow m s e m' r Ws We E. destruct (run_ok _ _ _ _ _ _ Ws We E) as (_ & _ & _ & _ & _ & K & L).
  split; [exact K|]. split; [exact L|]. intros s' [L1 B]. split; [done|]. destruct B as [Z|(a & Ea & B)]; [by left|]. right.
  destruct (L _ _ Ea) as (a' & Ea' & La). exists a'. split; [done|]. lia.
Qed.

(** The first slice keeps its elements, and so does every slice that has no element
    among the cells written. *)
Theorem C78_others : forall grow m s e m' r s' xs, window m s -> window m e ->
  append_unrepeatable_slices zero grow m s e = Ok (m', r) -> shows m s' xs ->
  s' = s \/ apart s (sl_len r - sl_len s) s' \/ sl_cap s < sl_len r ->
  shows m' s' xs.
Proof.
  intros grow m s e m' r s' xs Ws We E S D. destruct (run_ok _ _ _ _ _ _ Ws We E) as (Wr & _ & E1 & E2 & E3 & K & _).
  pose proof (window_shows _ _ Ws) as [Ls _]. pose proof (window_shows _ _ We) as [Le _].
  eapply shows_cells; [exact S|]. intros i Hi.
  assert (Ha : sl_arr s' < length m) by (eapply shows_arr; [exact S|lia]).
  destruct D as [->|[D|D]].
  - apply K; [done|]. intros (_ & Hj & _). lia.
  - apply K; [done|]. intros (Ea & Hj & _). unfold apart in D. lia.
  - destruct (decide (content m e = [])) as [Z|NZ]; [by destruct E1 as [-> ->]|].
    destruct (decide (content m s = [])) as [Zs|NZs]; [by destruct E2 as [-> ->]|].
    destruct E3 as [_ G]; [done..|]. destruct (G D) as [_ G']. unfold cell. by rewrite G'.
Qed.

(** What the result is: the first slice itself when there is nothing to add, the
    argument itself (not a copy) when the first slice is empty; otherwise it lies
    over the first slice when that has room, and in a new array when it has not. *)
Theorem C78_result : forall grow m s e xs ys m' r, window m s -> window m e -> shows m s xs -> shows m e ys ->
  append_unrepeatable_slices zero grow m s e = Ok (m', r) ->
  (ys = [] -> r = s /\ m' = m) /\
  (xs = [] -> ys <> [] -> r = e /\ m' = m) /\
  (xs <> [] -> ys <> [] -> sl_len r <= sl_cap s -> sl_arr r = sl_arr s /\ sl_off r = sl_off s /\ sl_cap r = sl_cap s /\ length m' = length m) /\
  (xs <> [] -> ys <> [] -> sl_cap s < sl_len r -> sl_arr r = length m /\ (forall i, i < length m -> m' !! i = m !! i)).
Proof.
  intros grow m s e xs ys m' r Ws We [<- _]%shows_content [<- _]%shows_content E.
  destruct (run_ok _ _ _ _ _ _ Ws We E) as (_ & _ & E1 & E2 & E3 & _ & _).
  split; [intros Z; by destruct E1|]. split; [intros Z NZ; by destruct E2|].
  split; intros A B; by apply E3.
Qed.

Lemma joined_one (c : list T) x r : joined c [x] r ->
  (c = [] /\ r = [x]) \/ (exists c0, c = c0 ++ [x] /\ r = c) \/ (exists c0 y, c = c0 ++ [y] /\ y <> x /\ r = c ++ [x]).
Proof.
  intros J. inversion J; simplify_eq/=.
  - left. done.
  - right. left. eexists. split; [reflexivity|done].
  - right. right. eexists _, _. split; [reflexivity|]. split; [done|]. by rewrite <- app_assoc.
Qed.

(** [cut prev c r]: taking [c] after the collected list [prev] gives [r]. *)
Lemma collect_cut grow : forall xs m s m' r, window m s -> collect zero grow m s xs = Ok (m', r) ->
  window m' r /\
  (content m s = [] -> runs_cut xs (content m' r)) /\
  (forall c0 y, content m s = c0 ++ [y] -> exists c, content m' r = c0 ++ c /\ runs_cut (y :: xs) c).
Proof.
  induction xs as [|x xs IH]; intros m s m' r Ws E; cbn [collect] in E.
  - injection E as <- <-. split; [done|]. split; [intros ->; constructor|]. intros c0 y ->. eexists. split; [done|]. constructor.
  - set (m1 := m ++ [[x]]) in *. set (e := mkSlice (length m) 0 1 1) in *.
    assert (En : m1 !! length m = Some [x]) by (unfold m1; rewrite lookup_app_r, Nat.sub_diag by lia; done).
    assert (We : window m1 e) by (split; [done|right; exists [x]; done]).
    assert (Ce : content m1 e = [x]) by (unfold content, cells; cbn [sl_arr e]; by rewrite En).
    assert (Ws1 : window m1 s).
    { destruct Ws as [L B]. split; [done|]. destruct B as [Z|(a & Ea & B)]; [by left|]. right. exists a. split; [|done]. unfold m1. rewrite lookup_app_l; [done|by eapply lookup_lt_Some]. }
    assert (Cs : content m1 s = content m s).
    { apply shows_content. eapply shows_cells; [by apply window_shows|]. intros i Hi. assert (sl_arr s < length m) by (eapply shows_arr; [by apply window_shows|lia]). unfold cell, m1. by rewrite lookup_app_l. }
    destruct (append_unrepeatable_slices zero grow m1 s e) as [[m2 s2]| |] eqn:R; cbn [res_bind] in E; [|done..].
    destruct (run_ok _ _ _ _ _ _ Ws1 We R) as (W2 & J & _). rewrite Ce, Cs in J.
    destruct (IH _ _ _ _ W2 E) as (Wr & _ & H2). split; [done|].
    apply joined_one in J as [[Z E2]|[(c1 & Ec & E2)|(c1 & y1 & Ec & N & E2)]].
    + split; [|intros c0 y Hc; rewrite Z in Hc; by destruct c0]. intros _. destruct (H2 [] x) as (c & -> & Hc); [by rewrite E2|]. done.
    + split; [intros Z; rewrite Z in Ec; by destruct c1|]. intros c0 y Hc. rewrite Ec in Hc. apply app_inj_tail in Hc as [<- <-].
      rewrite E2 in H2. destruct (H2 _ _ Ec) as (c & -> & Hc). eexists. split; [done|]. by constructor.
    + split; [intros Z; rewrite Z in Ec; by destruct c1|]. intros c0 y Hc. rewrite Ec in Hc. apply app_inj_tail in Hc as [<- <-].
      destruct (H2 (c1 ++ [y1]) x) as (c & -> & Hc); [by rewrite E2, Ec|]. exists (y1 :: c). split; [by rewrite <- app_assoc|]. by constructor.
Qed.

Lemma collect_total grow : forall xs m s, window m s -> exists m' r, collect zero grow m s xs = Ok (m', r).
Proof.
  induction xs as [|x xs IH]; intros m s Ws; cbn [collect]; [by eauto|].
  set (m1 := m ++ [[x]]). set (e := mkSlice (length m) 0 1 1).
  assert (We : window m1 e) by (split; [done|right; exists [x]; split; [unfold m1; cbn [sl_arr e]; rewrite lookup_app_r, Nat.sub_diag by lia; done|done]]).
  assert (Ws1 : window m1 s).
  { destruct Ws as [L B]. split; [done|]. destruct B as [Z|(a & Ea & B)]; [by left|]. right. exists a. split; [|done]. unfold m1. rewrite lookup_app_l; [done|by eapply lookup_lt_Some]. }
  destruct (C78_contents grow m1 s e _ _ Ws1 We (window_shows _ _ Ws1) (window_shows _ _ We)) as (m2 & s2 & zs & -> & W2 & _). cbn [res_bind]. by apply IH.
Qed.

(** Collecting elements one by one into a variable that starts empty gives the
    sequence with every run of equal elements cut to one, however the arrays grow. *)
Theorem C78_collect : forall grow m s xs, window m s -> shows m s [] ->
  exists m' r zs, collect zero grow m s xs = Ok (m', r) /\ window m' r /\ shows m' r zs /\ runs_cut xs zs.
Proof.
  intros grow m s xs Ws [Es _]%shows_content. destruct (collect_total grow xs m s Ws) as (m' & r & E).
  destruct (collect_cut _ _ _ _ _ _ Ws E) as (Wr & H1 & _). exists m', r, (content m' r).
  split; [done|]. split; [done|]. split; [by apply window_shows|]. by apply H1.
Qed.

(** The slices' contents decide the contents of the result, as in C22. *)
Lemma joined_C22 (a b : list T) : joined a b (append_unrepeatable a b).
Proof.
  unfold append_unrepeatable. destruct b as [|y b]; [constructor|]. destruct (last a) as [x|] eqn:L.
  - apply last_Some in L as [a0 ->]. case_bool_decide as D.
    + subst y. rewrite <- app_assoc. constructor.
    + rewrite <- app_assoc. by constructor.
  - apply last_None in L as ->. constructor.
Qed.
Theorem C78_joined_unique : forall a b c d : list T, joined a b c -> joined a b d -> c = d.
Proof.
  assert (G : forall a b c : list T, joined a b c -> c = append_unrepeatable a b).
  { intros a b c [a'|b'|a' x b'|a' x y b' N]; unfold append_unrepeatable.
    - done.
    - by destruct b'.
    - rewrite last_snoc, bool_decide_eq_true_2 by done. by rewrite <- app_assoc.
    - rewrite last_snoc, bool_decide_eq_false_2 by done. by rewrite <- app_assoc. }
  intros a b c d A B. rewrite (G _ _ _ A). symmetry. by apply G.
Qed.
End P.

(** False: the second argument's own elements survive; slices over the spare
    capacity survive; the result is a copy; changing the result's elements later
    never shows in an argument. *)
Definition ex_arr : list (list nat) := [[1; 2; 3; 4; 5]].
Example ex_C78 : let m := ex_arr in let s := mkSlice 0 0 2 5 in let e := mkSlice 0 1 3 4 in
  window m s /\ window m e /\ shows m s [1; 2] /\ shows m e [2; 3; 4] /\
  append_unrepeatable_slices 0 (fun n => 2 * n) m s e = Ok ([[1; 2; 3; 4; 5]], mkSlice 0 0 4 5) /\
  joined [1; 2] [2; 3; 4] [1; 2; 3; 4].
Proof.
  cbn zeta. split; [split; [cbn; lia|right; eexists; split; [reflexivity|cbn; lia]]|]. split; [split; [cbn; lia|right; eexists; split; [reflexivity|cbn; lia]]|].
  split; [by apply shows_content|]. split; [by apply shows_content|]. split; [reflexivity|]. exact (j_same [1] 2 [3; 4]).
Qed.
(** The second argument lies in the spare capacity of the first: its elements are
    written over while they are appended, and the result is still right. *)
Theorem C78_survives_refuted :
  let m := ex_arr in let s := mkSlice 0 0 2 5 in let e := mkSlice 0 3 2 2 in
  window m s /\ window m e /\ shows m e [4; 5] /\
  exists m' r, append_unrepeatable_slices 0 (fun n => n) m s e = Ok (m', r) /\
    shows m' r [1; 2; 4; 5] /\ shows m' e [5; 5] /\ ~ shows m' e [4; 5].
Proof.
  cbn zeta. split; [split; [cbn; lia|right; eexists; split; [reflexivity|cbn; lia]]|]. split; [split; [cbn; lia|right; eexists; split; [reflexivity|cbn; lia]]|].
  split; [by apply shows_content|]. eexists _, _. split; [reflexivity|]. split; [by apply shows_content|]. split; [by apply shows_content|].
  intros [E _]%shows_content. discriminate E.
Qed.
Theorem C78_copy_refuted :
  let m := ex_arr in let s := mkSlice 0 0 0 0 in let e := mkSlice 0 1 2 4 in
  append_unrepeatable_slices 0 (fun n => n) m s e = Ok (m, e).
Proof. reflexivity. Qed.
Example ex_C78_collect : let r := collect 0 (fun n => 2 * n) [] (mkSlice 0 0 0 0) [7; 7; 8; 8; 8; 7] in
  match r with Ok (m, s) => content m s = [7; 8; 7] | _ => False end /\
  window (T := nat) [] (mkSlice 0 0 0 0) /\ shows (T := nat) [] (mkSlice 0 0 0 0) [] /\ runs_cut [7; 7; 8; 8; 8; 7] [7; 8; 7].
Proof.
  cbn zeta. split; [reflexivity|]. split; [split; [cbn; lia|by left]|]. split; [by apply shows_content|].
  apply rc_same, rc_other; [lia|]. apply rc_same, rc_same, rc_other; [lia|]. constructor.
Qed.
