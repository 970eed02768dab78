(** The grammar of SpecGo.v: a program that checks sentences. *)
From Verif Require Import SpecGo PureProofs NodeProofs NodeInv NodeChain NodeOps NodeHist LexRun LexSpecProofs Opaque P_Lex P_Spell P_Get GoProofs GoLayout GoKinds.

Definition plainb (w : str) : bool := negb (bool_decide (w = [])) && forallb (fun c => negb (bool_decide (c ∈ separators)) && negb (bool_decide (c = c_dq)) && negb (bool_decide (c = c_bq)) && negb (bool_decide (c = "/"%char))) w.
Lemma plainb_ok w : plainb w = true -> plain_word w.
Proof. unfold plainb. rewrite andb_true_iff, negb_true_iff, bool_decide_eq_false. intros [N F]. by apply plain_check. Qed.
Definition wordb (ks : list kind) (w : str) : bool := plainb w && bool_decide (kind_new w ∈ ks).
Lemma wordb_ok ks w : wordb ks w = true -> plain_word w /\ kind_new w ∈ ks.
Proof. unfold wordb. rewrite andb_true_iff, bool_decide_eq_true. intros [P K]. split; [by apply plainb_ok|done]. Qed.
Definition identb (w : str) : bool := wordb [KRaw] w.
Lemma identb_ok w : identb w = true -> ident w.
Proof. intros H. apply wordb_ok in H as [P K]. split; [done|]. by apply elem_of_list_singleton in K. Qed.

Fixpoint no_funcb (t : ty) : bool :=
  match t with
  | TWord _ | TEmpty _ => true
  | TGeneric _ args => ps_no_funcb args
  | TSlice t | TArray _ t | TChan _ t | TPrefix _ t => no_funcb t
  | TMap _ k t => no_funcb k && no_funcb t
  | TFunc _ | TFuncR _ _ => false
  end
with ps_no_funcb (ps : plist) : bool := match ps with PNil => true | PCons _ t r => no_funcb t && ps_no_funcb r end.
Lemma no_funcb_all : (forall t, no_funcb t = true -> no_func t) /\ (forall ps, ps_no_funcb ps = true -> ps_no_func ps).
Proof. apply ty_plist_ind; cbn [no_funcb ps_no_funcb no_func ps_no_func]; intros; try done; try (by auto); match goal with H : _ && _ = true |- _ => apply andb_true_iff in H as [? ?] end; split; auto. Qed.
Fixpoint flatb (t : ty) : bool :=
  match t with
  | TWord _ => true
  | TGeneric _ args => ps_flatb args
  | TSlice t | TArray _ t | TChan _ t | TPrefix _ t => flatb t
  | TMap _ k t => flatb k && flatb t
  | TEmpty _ | TFunc _ | TFuncR _ _ => false
  end
with ps_flatb (ps : plist) : bool := match ps with PNil => true | PCons _ t r => flatb t && ps_flatb r end.
Lemma flatb_all : (forall t, flatb t = true -> flat t) /\ (forall ps, ps_flatb ps = true -> ps_flat ps).
Proof. apply ty_plist_ind; cbn [flatb ps_flatb flat ps_flat]; intros; try done; try (by auto); match goal with H : _ && _ = true |- _ => apply andb_true_iff in H as [? ?] end; split; auto. Qed.
Fixpoint tailedb (t : ty) : bool :=
  match t with
  | TWord _ | TEmpty _ => true
  | TGeneric _ args => ps_flatb args
  | TSlice t | TArray _ t | TChan _ t | TPrefix _ t => tailedb t
  | TMap _ k t => flatb k && tailedb t
  | TFunc _ | TFuncR _ _ => false
  end.
Lemma tailedb_ok t : tailedb t = true -> tailed t.
Proof.
  induction t; cbn [tailedb tailed]; try done; [apply flatb_all|]. rewrite andb_true_iff. intros [A B]. split; [by apply flatb_all|auto].
Qed.
Fixpoint res_tyb (t : ty) : bool :=
  match t with
  | TFunc _ => true
  | TFuncR _ r => res_tyb r
  | TChan _ t => res_tyb t
  | t => tailedb t
  end.
Lemma res_tyb_ok t : res_tyb t = true -> res_ty t.
Proof. induction t; try (apply tailedb_ok); cbn [res_tyb res_ty]; done. Qed.
Fixpoint after_okb (t : ty) : bool :=
  match t with
  | TSlice t | TArray _ t | TMap _ _ t | TPrefix _ t => after_okb t
  | TChan _ t | TFuncR _ t => res_tyb t
  | _ => true
  end.
Lemma after_okb_ok t : after_okb t = true -> after_ok t.
Proof. induction t; cbn [after_okb after_ok]; try done; apply res_tyb_ok. Qed.
Fixpoint first_okb (t : ty) : bool :=
  match t with
  | TSlice t | TArray _ t | TPrefix _ t | TFuncR _ t => first_okb t
  | TMap m _ t => if bool_decide (m = $"map") then first_okb t else after_okb t
  | TChan c t => if bool_decide (c = $"chan") then first_okb t else res_tyb t
  | _ => true
  end.
Lemma first_okb_ok t : first_okb t = true -> first_ok t.
Proof. induction t; cbn [first_okb first_ok]; try done; destruct (bool_decide _); try done; [apply after_okb_ok|apply res_tyb_ok]. Qed.
Fixpoint aloneb (t : ty) : bool :=
  match t with
  | TWord _ | TFunc _ => true
  | TGeneric _ args => ps_flatb args
  | TSlice t | TArray _ t | TPrefix _ t => aloneb t
  | TMap m k t => if bool_decide (m = $"map") then aloneb t else flatb k && flatb t
  | TChan c t => if bool_decide (c = $"chan") then aloneb t else flatb t
  | TEmpty w => bool_decide (w ∈ [$"interface"; $"struct"])
  | TFuncR _ r => first_okb r
  end.
Lemma aloneb_ok t : aloneb t = true -> alone t.
Proof.
  induction t as [w|w args|t IH|n t IH|m k _ t IH|c t IH|w|s t IH|ps|ps r IH]; cbn [aloneb alone]; try done.
  - apply flatb_all.
  - destruct (bool_decide _); [done|]. rewrite andb_true_iff. intros [A B]. split; by apply flatb_all.
  - destruct (bool_decide _); [done|]. apply flatb_all.
  - apply bool_decide_eq_true_1.
  - apply first_okb_ok.
Qed.
Fixpoint ty_okb (t : ty) : bool :=
  match t with
  | TWord w => wordb [KRaw; KBasic] w
  | TGeneric w args => identb w && match args with PNil => false | _ => true end && args_okb args && ps_no_funcb args
  | TSlice t => ty_okb t
  | TArray n t => wordb [KRaw; KBasic; KNumber] n && ty_okb t
  | TMap m k t => (bool_decide (m = $"map") || identb m) && ty_okb k && no_funcb k && ty_okb t
  | TChan c t => (bool_decide (c = $"chan") || identb c) && ty_okb t
  | TEmpty w => bool_decide (w ∈ [$"interface"; $"struct"]) || identb w
  | TPrefix s t => wordb [KSymbol] s && ty_okb t && match t with TSlice _ | TArray _ _ => true | _ => false end
  | TFunc ps => ps_okb ps
  | TFuncR ps r => ps_okb ps && ty_okb r
  end
with ps_okb (ps : plist) : bool :=
  match ps with
  | PNil => true
  | PCons o t rest =>
    match o with Some n => identb n || bool_decide (n = $"_") | None => true end && ty_okb t && ps_okb rest
  end
with args_okb (ps : plist) : bool :=
  match ps with
  | PNil => true
  | PCons o t rest => match o with None => true | _ => false end && ty_okb t && args_okb rest
  end.
Lemma ty_ps_okb_all : (forall t, ty_okb t = true -> ty_ok t) /\ (forall ps, (ps_okb ps = true -> ps_ok ps) /\ (args_okb ps = true -> args_ok ps)).
Proof.
  assert (Or : forall (P : Prop) b w, (b = true -> P) -> b || identb w = true -> P \/ ident w).
  { intros P b w H. rewrite orb_true_iff. intros [A|A]; [left; auto|right; by apply identb_ok]. }
  apply ty_plist_ind; cbn [ty_okb ps_okb args_okb ty_ok ps_ok args_ok]; intros; rewrite ?andb_true_iff in *; try done.
  - by apply wordb_ok.
  - destruct H0 as [[[H1 H2] H3] H4]. split; [by apply identb_ok|]. split; [by destruct args|]. split; [by apply H|by apply no_funcb_all].
  - by apply H.
  - destruct H0 as [H1 H2]. split; [by apply wordb_ok|by apply H].
  - destruct H1 as [[[H1 H2] H3] H4]. split; [eapply Or; [|exact H1]; apply bool_decide_eq_true_1|]. split; [by apply H|]. split; [by apply no_funcb_all|by apply H0].
  - destruct H0 as [H1 H2]. split; [eapply Or; [|exact H1]; apply bool_decide_eq_true_1|by apply H].
  - eapply Or; [|exact H]. apply bool_decide_eq_true_1.
  - destruct H0 as [[H1 H2] H3]. split; [|split; [by apply H|by destruct t]]. apply wordb_ok in H1 as [P K]. split; [done|]. by apply elem_of_list_singleton in K.
  - by apply H.
  - destruct H1 as [H1 H2]. split; [by apply H|by apply H0].
  - split; intros H1; rewrite ?andb_true_iff in H1.
    + destruct H1 as [[H1 H2] H3]. split; [|split; [by apply H|by apply H0]].
      destruct name as [n|]; [|done]. apply orb_true_iff in H1 as [H1|H1]; [left; by apply identb_ok|right; by apply bool_decide_eq_true in H1].
    + destruct H1 as [[H1 H2] H3]. split; [by destruct name|]. split; [by apply H|by apply H0].
Qed.
Lemma ty_ps_okb : (forall t, ty_okb t = true -> ty_ok t) /\ (forall ps, ps_okb ps = true -> ps_ok ps).
Proof. split; [apply ty_ps_okb_all|]. intros ps. apply ty_ps_okb_all. Qed.
Definition ty_okb_ok := proj1 ty_ps_okb.
Definition ps_okb_ok := proj2 ty_ps_okb.
Definition group_okb (g : pgroup) : bool :=
  match g with
  | Flat ps => ps_okb ps
  | Rows _ rows => forallb (fun r => match fst r with PNil => false | _ => ps_okb (fst r) end && match snd r with Some c => bool_decide (c_nl ∉ c) | None => true end) rows
  | Calls ps o w fs rs => ps_okb ps && match o with Some n => (identb n || bool_decide (n = $"_")) | None => true end && identb w && ps_okb fs && ps_okb rs
  | CallRows _ rows o w fs rs note =>
    forallb (fun r => match fst r with PNil => false | _ => ps_okb (fst r) end && match snd r with Some c => bool_decide (c_nl ∉ c) | None => true end) rows &&
    match o with Some n => (identb n || bool_decide (n = $"_")) | None => true end && identb w && ps_okb fs && ps_okb rs && match note with Some c => bool_decide (c_nl ∉ c) | None => true end
  end.
Definition listedb (g : pgroup) : bool := match g with Calls _ _ _ _ _ | CallRows _ _ _ _ _ _ _ => false | _ => true end.
Lemma listedb_ok g : listedb g = true -> listed g. Proof. by destruct g. Qed.
Definition in_lineb (g : pgroup) : bool := match g with CallRows _ _ _ _ _ _ _ => false | _ => true end.
Lemma in_lineb_ok g : in_lineb g = true -> in_line g. Proof. by destruct g. Qed.
Lemma prows_okb rows : forallb (fun r : plist * option str => match fst r with PNil => false | _ => ps_okb (fst r) end && match snd r with Some c => bool_decide (c_nl ∉ c) | None => true end) rows = true ->
  Forall (fun r : plist * option str => fst r <> PNil /\ ps_ok (fst r) /\ match snd r with Some c => c_nl ∉ c | None => True end) rows.
Proof.
  rewrite forallb_forall, Forall_forall. intros H [ps o] Hx. apply elem_of_list_In in Hx. specialize (H _ Hx). cbn [fst snd] in *.
  apply andb_true_iff in H as [A B]. destruct ps as [|o' t r]; [discriminate A|]. split; [discriminate|]. split; [by apply ps_okb_ok|]. destruct o; [by apply bool_decide_eq_true in B|done].
Qed.
Lemma group_okb_ok g : group_okb g = true -> group_ok g.
Proof.
  destruct g as [ps|n rows|ps o w fs rs|n rows o w fs rs note]; cbn [group_okb group_ok]; [apply ps_okb_ok|apply prows_okb|..]; rewrite !andb_true_iff.
  - intros [[[[A B] C] D] E]. split; [by apply ps_okb_ok|]. split; [destruct o as [n|]; [|done]; apply orb_true_iff in B as [B|B]; [left; by apply identb_ok|right; by apply bool_decide_eq_true in B]|]. split; [by apply identb_ok|]. split; by apply ps_okb_ok.
  - intros [[[[[A B] C] D] E] F]. split; [by apply prows_okb|]. split; [destruct o as [m|]; [|done]; apply orb_true_iff in B as [B|B]; [left; by apply identb_ok|right; by apply bool_decide_eq_true in B]|]. split; [by apply identb_ok|]. split; [by apply ps_okb_ok|]. split; [by apply ps_okb_ok|]. destruct note; [by apply bool_decide_eq_true in F|done].
Qed.
Definition after_rowsb (g : pgroup) (r : result) : bool :=
  match g, r with
  | Rows _ _, RMany (Flat rs) | CallRows _ _ _ _ _ _ _, RMany (Flat rs) => match ps_out source rs with [] => true | (t, _) :: _ => negb (existsb (fun k => bool_decide (k `prefix_of` t)) scope_keywords) end
  | _, _ => true
  end.
Lemma after_rowsb_ok g r : after_rowsb g r = true -> after_rows g r.
Proof.
  destruct g as [ps|n rows|ps o w fs rs'|n0 rows0 o0 w0 fs0 rs0 note0], r as [|t|t rs|[rs|m rs|ps1 o1 w1 fs1 rs|n1 rows1 o1 w1 fs1 rs1 note1]]; cbn [after_rowsb after_rows]; try done; intros H t k ts E; rewrite E in H; apply negb_true_iff, not_true_iff_false in H;
  intros (kw & Hk & P); apply H, existsb_exists; exists kw; (split; [by apply elem_of_list_In|]; by apply bool_decide_eq_true).
Qed.
Fixpoint ends_funcb (t : ty) : bool :=
  match t with
  | TFunc _ => true
  | TSlice t | TArray _ t | TMap _ _ t | TChan _ t | TPrefix _ t | TFuncR _ t => ends_funcb t
  | _ => false
  end.
Lemma ends_funcb_ok t : ends_funcb t = true -> ends_func t.
Proof. by induction t; cbn [ends_funcb ends_func]. Qed.
Definition res_okb (r : result) : bool :=
  match r with RNone => true | ROne t => ty_okb t && res_tyb t | RFunc t rs => ty_okb t && res_tyb t && ends_funcb t && ps_okb rs | RMany ps => group_okb ps && listedb ps end.
Lemma res_okb_ok r : res_okb r = true -> res_ok r.
Proof.
  destruct r as [|t|t rs|ps]; cbn [res_okb res_ok]; [done|..]; rewrite !andb_true_iff; [intros [A B]; split; [by apply ty_okb_ok|by apply res_tyb_ok]| |intros [A B]; split; [by apply group_okb_ok|by apply listedb_ok]].
  intros [[[A B] C] D]. split; [by apply ty_okb_ok|]. split; [by apply res_tyb_ok|]. split; [by apply ends_funcb_ok|by apply ps_okb_ok].
Qed.

(** Brackets. *)
Fixpoint matchedb (st : list str) (ts : list str) : bool :=
  match ts with
  | [] => bool_decide (st = [])
  | t :: r =>
    if bool_decide (t = $"(") then matchedb ($")" :: st) r
    else if bool_decide (t = $"[") then matchedb ($"]" :: st) r
    else if bool_decide (t = $"{") then matchedb ($"}" :: st) r
    else if bool_decide (t ∈ [$")"; $"]"; $"}"]) then match st with c :: st' => bool_decide (t = c) && matchedb st' r | [] => false end
    else matchedb st r
  end.
Fixpoint fits (st : list str) (ts : list str) : Prop :=
  match st with [] => matched ts | c :: st' => exists m r, ts = m ++ c :: r /\ matched m /\ fits st' r end.
Lemma fits_pair o c st r : (o, c) ∈ [($"(", $")"); ($"[", $"]"); ($"{", $"}")] -> fits (c :: st) r -> fits st (o :: r).
Proof.
  intros P (m & r' & -> & M & F). destruct st as [|c' st]; cbn [fits] in *; [by apply ma_pair|]. destruct F as (m2 & r2 & -> & M2 & F).
  exists (o :: m ++ c :: m2), r2. split; [cbn [app]; by rewrite <- app_assoc|]. split; [by apply ma_pair|done].
Qed.
Lemma matchedb_ok ts : forall st, matchedb st ts = true -> fits st ts.
Proof.
  induction ts as [|t r IH]; intros st H; cbn [matchedb] in H.
  - apply bool_decide_eq_true in H as ->. constructor.
  - destruct (bool_decide (t = $"(")) eqn:E1; [apply bool_decide_eq_true in E1 as ->; apply (fits_pair _ $")"); [eapply bool_decide_unpack; vm_compute; exact Logic.I|by apply IH]|].
    destruct (bool_decide (t = $"[")) eqn:E2; [apply bool_decide_eq_true in E2 as ->; apply (fits_pair _ $"]"); [eapply bool_decide_unpack; vm_compute; exact Logic.I|by apply IH]|].
    destruct (bool_decide (t = $"{")) eqn:E3; [apply bool_decide_eq_true in E3 as ->; apply (fits_pair _ $"}"); [eapply bool_decide_unpack; vm_compute; exact Logic.I|by apply IH]|].
    apply bool_decide_eq_false in E1, E2, E3.
    destruct (bool_decide (t ∈ [$")"; $"]"; $"}"])) eqn:E4.
    + destruct st as [|c st]; [done|]. apply andb_true_iff in H as [Et H]. apply bool_decide_eq_true in Et as ->. exists [], r. split; [done|]. split; [constructor|by apply IH].
    + apply bool_decide_eq_false in E4. assert (N : t ∉ [$"("; $")"; $"["; $"]"; $"{"; $"}"]) by (rewrite !elem_of_cons in *; tauto).
      specialize (IH st H). destruct st as [|c st]; cbn [fits] in *; [by apply ma_other|]. destruct IH as (m & q & -> & M & F). exists (t :: m), q. split; [done|]. split; [by apply ma_other|done].
Qed.

(** The tokens of a text. *)
Definition shown (s : str) : list lexeme :=
  match extract src_ord [] s with
  | Ok (h, p) => map (fun l => text_kind (pay h l)) (follow (S (length h)) (fun l => next_of h (Some l)) p)
  | _ => []
  end.
Lemma follow_nseg h ls : forall f p, nseg h p ls None -> length ls < f -> follow f (fun l => next_of h (Some l)) p = ls.
Proof.
  induction ls as [|l ls IH]; intros [|f] p N L; cbn [length] in L; try lia.
  - cbn in N. by subst p.
  - destruct N as [-> N]. cbn [follow]. f_equal. apply IH; [done|lia].
Qed.
Lemma shown_tokens s : exists ts, tokens s ts /\ shown s = map text_kind ts.
Proof.
  assert (O : any_order src_ord) by (by intros i). destruct (C29_tokeniser_terminates src_ord [] s O wf_nil) as (h & ls & T & W & _).
  exists (map (pay h) ls). split; [by apply (tokenised_tokens src_ord [] s h ls O wf_nil)|]. destruct T as [E C]. unfold shown. rewrite E, map_map. f_equal.
  pose proof (seg_nseg _ _ _ _ C) as N. assert (Hd : hd_ptr ls None = head ls) by (by destruct ls). rewrite Hd in N. apply follow_nseg; [done|].
  assert (L : length ls <= length h) by (apply NoDup_bound; [by eapply chain_NoDup|]; intros x Hx; by eapply valid_chain). lia.
Qed.
Definition spelledb (xs : list lexeme) : bool := bool_decide (shown (spelling xs) = xs) && bool_decide (last xs = Some (lx [c_nl]) \/ last xs = Some (lx $"}")).
Lemma spelledb_ok xs : spelledb xs = true -> spelled xs.
Proof.
  unfold spelledb. rewrite andb_true_iff, !bool_decide_eq_true. intros [E L]. destruct (shown_tokens (spelling xs)) as (ts & T & E2). rewrite E in E2. subst xs.
  eapply scan_is_spelled; [exact T|]. intros t Ht. destruct L as [L|L]; rewrite L in Ht; injection Ht as <-; intros (d & (q & Q) & _); destruct d; discriminate Q.
Qed.
(** Quiet code; [rx] is what comes before, last first. *)
Definition startsb (t : str) : bool := existsb (fun k => bool_decide (k `prefix_of` t)) scope_keywords.
Definition is_wordb (t : str) : bool :=
  negb (existsb (fun d => bool_decide (opener d `prefix_of` t)) [DString; DRaw; DBlock; DLine]) && match t with [c] => negb (bool_decide (c ∈ separators)) | _ => true end.
Lemma is_wordb_ok t : is_wordb t = true -> is_word t.
Proof.
  unfold is_wordb. rewrite andb_true_iff, negb_true_iff. intros [A B]. split.
  - intros [d D]. apply not_true_iff_false in A. apply A, existsb_exists. exists d. split; [destruct d; cbn; tauto|by apply bool_decide_eq_true].
  - intros c ->. apply negb_true_iff, bool_decide_eq_false in B. done.
Qed.
Definition shieldedb (rx : list str) : bool :=
  match rx with
  | [c] :: r => bool_decide (c ∈ separators) && (negb (bool_decide (c ∈ [c_nl; "("%char; "{"%char])) || match r with w :: _ => is_wordb w && negb (bool_decide (c = c_nl)) | [] => false end)
  | _ => false
  end.
Lemma shieldedb_ok rx : shieldedb rx = true -> shielded (rev rx).
Proof.
  destruct rx as [|[|c [|? ?]] r]; cbn [shieldedb]; try done. rewrite andb_true_iff, orb_true_iff, bool_decide_eq_true, negb_true_iff, bool_decide_eq_false. intros [Hc [H|H]]; cbn [rev].
  - left. by exists (rev r), c.
  - destruct (decide (c ∈ [c_nl; "("%char; "{"%char])) as [Y|N]; [|left; by exists (rev r), c].
    destruct r as [|w r]; [done|]. apply andb_true_iff in H as [Hw H]. apply negb_true_iff, bool_decide_eq_false in H. right. exists (rev r), w, [c]. cbn [rev]. split; [by rewrite <- app_assoc|].
    split; [by apply is_wordb_ok|]. apply elem_of_cons in Y as [->|Y]; [done|]. apply elem_of_cons in Y as [->|Y]; [by left|]. apply elem_of_list_singleton in Y as ->. by right; left.
Qed.
Fixpoint quietb (rx : list str) (ts : list str) : bool :=
  match ts with [] => true | t :: r => (negb (startsb t) || shieldedb rx) && quietb (t :: rx) r end.
Lemma quietb_ok ts : forall rx, quietb rx ts = true -> forall xs t ys, ts = xs ++ t :: ys -> (exists k, begins k t) -> shielded (rev rx ++ xs).
Proof.
  induction ts as [|t0 ts IH]; intros rx H xs t ys E B; [by destruct xs|]. cbn [quietb] in H. apply andb_true_iff in H as [H1 H2].
  destruct xs as [|x xs]; cbn [app] in E; injection E as -> E.
  - rewrite app_nil_r. apply shieldedb_ok. apply orb_true_iff in H1 as [H1|H1]; [|done]. exfalso. apply negb_true_iff, not_true_iff_false in H1. apply H1. apply existsb_exists.
    destruct B as (k & Hk & Pk). exists k. split; [by apply elem_of_list_In|by apply bool_decide_eq_true].
  - specialize (IH (x :: rx) H2 xs t ys E B). cbn [rev] in IH. by rewrite <- app_assoc in IH.
Qed.
Definition code_okb (before after ts : list lexeme) : bool := matchedb [] (map fst ts) && spelledb (before ++ ts ++ after) && quietb [] (map fst ts).
Lemma code_okb_ok before after ts : code_okb before after ts = true -> code_ok before after ts.
Proof.
  unfold code_okb. rewrite !andb_true_iff. intros [[A B] C]. split; [by apply (matchedb_ok _ [])|]. split; [by apply spelledb_ok|]. intros xs t ys. by apply (quietb_ok _ []).
Qed.
(** Whole strings and comments. *)
Lemma spelled_delim xs : spelled xs -> forall t k r d, xs = (t, k) :: r -> d <> DLine -> opener d `prefix_of` t -> whole d t.
Proof.
  destruct 1 as [|c ts Hc|w ts Hw|e t0 ts Nd W|b k0 ts Nb]; intros t k r d E N O; [done|..].
  - assert (t = [c]) as -> by congruence. exfalso. apply (sep_no_open c [] Hc). by exists d.
  - assert (t = w) as -> by congruence. exfalso. destruct Hw as (_ & Hc & A & B). destruct O as [q ->]. destruct d; cbn [opener] in *.
    + destruct (Hc c_dq) as (_ & ? & _); [by left|done].
    + destruct (Hc c_bq) as (_ & _ & ?); [by left|done].
    + by apply (B [] q).
    + by apply (A [] q).
  - assert (t = t0) as -> by congruence. pose proof (closed_opener _ _ (proj1 W)) as O2. by rewrite (opener_inj d e _ O O2).
  - assert (t = $"//" ++ b) as -> by congruence. exfalso. apply N. apply (opener_inj d DLine _ O). by exists b.
Qed.
Definition wholeb (d : delim) (t : str) : bool := spelledb [(t, dkind d); lx [c_nl]] && bool_decide (opener d `prefix_of` t).
Lemma wholeb_ok d t : d <> DLine -> wholeb d t = true -> whole d t.
Proof. unfold wholeb. rewrite andb_true_iff, bool_decide_eq_true. intros N [S O]. apply spelledb_ok in S. by apply (spelled_delim _ S _ _ _ d eq_refl). Qed.
Definition no_nlb (s : str) : bool := bool_decide (c_nl ∉ s).
Definition noteb (n : option (nat * str)) : bool := match n with Some (_, c) => no_nlb c | None => true end.
Definition tagb (tag : option (nat * str)) : bool := match tag with Some (_, s) => (wholeb DString s || wholeb DRaw s) && no_nlb s | None => true end.
Definition holder_okb (h : holder) : bool :=
  match h with HSlice => true | HArray n => wordb [KRaw; KBasic; KNumber] n | HMap m k => (bool_decide (m = $"map") || identb m) && ty_okb k && no_funcb k end.
Definition names_okb (n : str) (more : list str) : bool := identb n && forallb identb more || bool_decide (n = $"_") && bool_decide (more = []).
Definition srow_okb (r : srow) : bool :=
  match r with
  | FieldRow n more _ t rs tag note => names_okb n more && ty_okb t && match rs with PNil => true | _ => ends_funcb t && ps_okb rs && ps_no_funcb rs end && tagb tag && noteb note
  | OpenRow n more _ hs w => names_okb n more && forallb holder_okb hs && (bool_decide (w = $"struct") || identb w)
  | CloseRow tag note => tagb tag && noteb note
  | EmbedRow t tag note => ty_okb t && match t with TWord _ | TGeneric _ _ => true | _ => false end && tagb tag && noteb note
  | CommentRow c => no_nlb c
  | BlankRow => true
  end.
Fixpoint srows_okb (d : nat) (rows : list srow) : bool :=
  match rows with
  | [] => d =? 1
  | r :: rows => srow_okb r &&
    match r with
    | OpenRow _ _ _ _ _ => srows_okb (S d) rows
    | CloseRow _ _ => (2 <=? d) && srows_okb (pred d) rows
    | _ => srows_okb d rows
    end
  end.
Lemma forallb_ok {A} (f : A -> bool) (P : A -> Prop) xs : (forall x, f x = true -> P x) -> forallb f xs = true -> Forall P xs.
Proof. intros H F. apply Forall_forall. intros x Hx. rewrite forallb_forall in F. apply H, F. by apply elem_of_list_In. Qed.
Lemma tagb_ok tag : tagb tag = true -> tag_ok tag.
Proof.
  destruct tag as [[m s]|]; [|done]. cbn [tagb tag_ok]. rewrite andb_true_iff, orb_true_iff. intros [D D2]. split; [|by apply bool_decide_eq_true in D2]. destruct D; [left|right]; by apply wholeb_ok.
Qed.
Lemma noteb_ok note : noteb note = true -> note_ok note.
Proof. destruct note as [[m s]|]; [|done]. apply bool_decide_eq_true. Qed.
Lemma holder_okb_ok h : holder_okb h = true -> holder_ok h.
Proof.
  destruct h as [|n|m k]; cbn [holder_okb holder_ok]; [done|by apply wordb_ok|]. rewrite !andb_true_iff, orb_true_iff, bool_decide_eq_true. intros [[M K] N].
  split; [destruct M; [by left|right; by apply identb_ok]|]. split; [by apply ty_okb_ok|by apply no_funcb_all].
Qed.
Lemma names_okb_ok n more : names_okb n more = true -> names_ok n more.
Proof.
  unfold names_okb. rewrite orb_true_iff, !andb_true_iff, !bool_decide_eq_true. intros [[A B]|AB]; [left|right; exact AB]. split; [by apply identb_ok|].
  by apply (forallb_ok identb ident _ identb_ok).
Qed.
Lemma srow_okb_ok r : srow_okb r = true -> srow_ok r.
Proof.
  destruct r as [n more pad t rs tag note|n more pad hs w|tag note|t tag note|c|]; cbn [srow_okb srow_ok]; rewrite ?andb_true_iff.
  - intros [[[[A C] B] D] E]. split; [by apply names_okb_ok|]. split; [by apply ty_okb_ok|]. split; [|split; [by apply tagb_ok|by apply noteb_ok]].
    destruct rs as [|o u r]; [by left|right]. apply andb_true_iff in B as [B B3]. apply andb_true_iff in B as [B1 B2]. split; [by apply ends_funcb_ok|]. split; [by apply ps_okb_ok|by apply no_funcb_all].
  - intros [[A C] D]. split; [by apply names_okb_ok|]. split; [by apply (forallb_ok holder_okb holder_ok _ holder_okb_ok)|].
    rewrite orb_true_iff, bool_decide_eq_true in D. destruct D; [by left|right; by apply identb_ok].
  - intros [D E]. split; [by apply tagb_ok|by apply noteb_ok].
  - intros [[[A B] D] E]. split; [by apply ty_okb_ok|]. split; [by destruct t|]. split; [by apply tagb_ok|by apply noteb_ok].
  - apply bool_decide_eq_true.
  - done.
Qed.
Lemma srows_okb_ok rows : forall d, srows_okb d rows = true -> srows_ok d rows.
Proof.
  induction rows as [|r rows IH]; intros d; cbn [srows_okb srows_ok]; [apply Nat.eqb_eq|]. rewrite andb_true_iff. intros [R Rs]. split; [by apply srow_okb_ok|].
  destruct r as [n more pad t rs tag note|n more pad hs w|tag note|t tag note|c|]; try (by apply IH). apply andb_true_iff in Rs as [L Rs]. split; [by apply Nat.leb_le|by apply IH].
Qed.
Fixpoint apartb (ts : list str) : bool :=
  match ts with
  | t :: ((u :: _) as r) => negb (bool_decide (forallb (fun c => negb (bool_decide (c ∈ separators))) t /\ forallb (fun c => negb (bool_decide (c ∈ separators))) u)) && apartb r
  | _ => true
  end.
Lemma apartb_ok ts : apartb ts = true -> forall xs t u ys, ts = xs ++ t :: u :: ys -> plain_word t -> ~ plain_word u.
Proof.
  assert (P : forall w, plain_word w -> forallb (fun c => negb (bool_decide (c ∈ separators))) w).
  { intros w [_ W]. apply Is_true_true, forallb_forall. intros c Hc. apply elem_of_list_In in Hc. destruct (W c Hc) as [S _]. by rewrite bool_decide_eq_false_2. }
  induction ts as [|a ts IH]; intros H xs t u ys E Wt Wu; [by destruct xs|]. destruct xs as [|x xs]; cbn [app] in E.
  - injection E as -> ->. cbn [apartb] in H. apply andb_true_iff in H as [H _]. rewrite bool_decide_eq_true_2 in H; [done|]. split; by apply P.
  - injection E as -> E. apply (IH) with (xs := xs) (t := t) (u := u) (ys := ys); [|done|done|done]. destruct ts as [|b ts]; [done|]. cbn [apartb] in H. by apply andb_true_iff in H as [_ H].
Qed.
Definition tps_okb (tps : list str) : bool :=
  matchedb [] tps && forallb (fun t => plainb t || bool_decide (t ∈ [$" "; $","; $"("; $")"; $"["; $"]"; $"{"; $"}"])) tps && apartb tps.
Lemma tps_okb_ok tps : tps_okb tps = true -> tps_ok tps.
Proof.
  unfold tps_okb. rewrite !andb_true_iff. intros [[A B] C]. split; [by apply (matchedb_ok _ [])|]. split; [|by apply apartb_ok].
  eapply forallb_ok; [|exact B]. intros t. cbv beta. rewrite orb_true_iff, bool_decide_eq_true. intros [X|X]; [left; by apply plainb_ok|by right].
Qed.
Definition irow_okb (r : irow) : bool :=
  match r with
  | IMethod n ps r note => identb n && group_okb ps && in_lineb ps && res_okb r && after_rowsb ps r && match note with Some c => no_nlb c | None => true end
  | IElems w more note => wordb [KRaw; KBasic] w && tps_okb (w :: more) && forallb (fun t => bool_decide (t ∉ [$"("; $")"; $"{"; $"}"])) more && match note with Some c => no_nlb c | None => true end
  | IComment c => no_nlb c
  | IBlank => true
  end.
Lemma irow_okb_ok r : irow_okb r = true -> irow_ok r.
Proof.
  destruct r as [n ps r note|w more note|c|]; cbn [irow_okb irow_ok]; rewrite ?andb_true_iff.
  - intros [[[[[A B] B'] C] C'] D]. split; [by apply identb_ok|]. split; [by apply group_okb_ok|]. split; [by apply in_lineb_ok|]. split; [by apply res_okb_ok|]. split; [by apply after_rowsb_ok|]. destruct note; [by apply bool_decide_eq_true in D|done].
  - intros [[[A B] C] D]. split; [by apply wordb_ok|]. split; [by apply tps_okb_ok|]. split; [|destruct note; [by apply bool_decide_eq_true in D|done]].
    eapply forallb_ok; [|exact C]. intros t. apply bool_decide_eq_true_1.
  - apply bool_decide_eq_true.
  - done.
Qed.
Definition end_okb (note : option str) : bool := match note with Some c => no_nlb c | None => true end.
Lemma end_okb_ok note : end_okb note = true -> end_ok note.
Proof. destruct note as [c|]; [|done]. apply bool_decide_eq_true_1. Qed.
Definition fres_okb (r : result) : bool :=
  match r with ROne t => ty_okb t && first_okb t | RFunc t rs => ty_okb t && first_okb t && ends_funcb t && ps_okb rs | r => res_okb r end.
Lemma fres_okb_ok r : fres_okb r = true -> fres_ok r.
Proof.
  destruct r as [|t|t rs|g]; try apply res_okb_ok; cbn [fres_okb fres_ok]; rewrite !andb_true_iff; [intros [A B]; split; [by apply ty_okb_ok|by apply first_okb_ok]|].
  intros [[[A B] C] D]. split; [by apply ty_okb_ok|]. split; [by apply first_okb_ok|]. split; [by apply ends_funcb_ok|by apply ps_okb_ok].
Qed.
Definition decl_okb (d : decl) : bool :=
  match d with
  | DFunc recv name tps ps r body note =>
    match recv with Some (o, t) => ps_okb (PCons o t PNil) && no_funcb t | None => true end &&
    identb name && tps_okb tps && group_okb ps && res_okb r && after_rowsb ps r && match body with Some code => code_okb [lx $"{"] [lx $"}"] code | None => true end && end_okb note
  | DStruct name tps rows note => identb name && tps_okb tps && srows_okb 1 rows && end_okb note
  | DInterface name tps rows note => identb name && tps_okb tps && forallb irow_okb rows && end_okb note
  | DType name tps _ t rs note => identb name && tps_okb tps && ty_okb t && aloneb t && (match rs with PNil => true | _ => ends_funcb t && ps_okb rs end) && end_okb note
  | DFuncType name tps ps r note => identb name && tps_okb tps && group_okb ps && in_lineb ps && fres_okb r && after_rowsb ps r && end_okb note
  | DGroup code => code_okb [lx [c_nl]] [lx $")"; lx [c_nl]] code
  | DOther kw code => bool_decide (kw ∈ [$"package"; $"import"; $"var"; $"const"]) && code_okb [lx kw] [lx [c_nl]] code
  | DLineComment c => no_nlb c
  | DBlockComment c => wholeb DBlock c
  end.
Lemma decl_okb_ok d : decl_okb d = true -> decl_ok d.
Proof.
  destruct d as [recv name tps ps r body note|name tps rows note|name tps rows note|name tps alias t rs note|name tps ps r note|code|kw code|c|c]; cbn [decl_okb decl_ok]; rewrite ?andb_true_iff.
  - intros [[[[[[[A B] C] D] E] E'] F] G]. split; [|split; [by apply identb_ok|]; split; [by apply tps_okb_ok|]; split; [by apply group_okb_ok|]; split; [by apply res_okb_ok|]; split; [by apply after_rowsb_ok|]; split; [|by apply end_okb_ok]].
    + destruct recv as [[o t]|]; [|done]. apply andb_true_iff in A as [A1 A2]. split; [by apply ps_okb_ok|by apply no_funcb_all].
    + destruct body as [code|]; [by apply code_okb_ok|done].
  - intros [[[A B] C] D]. split; [by apply identb_ok|]. split; [by apply tps_okb_ok|]. split; [by apply srows_okb_ok|by apply end_okb_ok].
  - intros [[[A B] C] D]. split; [by apply identb_ok|]. split; [by apply tps_okb_ok|]. split; [by apply (forallb_ok irow_okb irow_ok _ irow_okb_ok)|by apply end_okb_ok].
  - intros [[[[[A B] C] D] R] E]. split; [by apply identb_ok|]. split; [by apply tps_okb_ok|]. split; [by apply ty_okb_ok|]. split; [by apply aloneb_ok|]. split; [|by apply end_okb_ok].
    destruct rs as [|o u r]; [by left|right]. apply andb_true_iff in R as [R1 R2]. split; [by apply ends_funcb_ok|by apply ps_okb_ok].
  - intros [[[[[[A B] C] C'] D] E] F]. split; [by apply identb_ok|]. split; [by apply tps_okb_ok|]. split; [by apply group_okb_ok|]. split; [by apply in_lineb_ok|]. split; [by apply fres_okb_ok|]. split; [by apply after_rowsb_ok|by apply end_okb_ok].
  - apply code_okb_ok.
  - intros [A B]. split; [by apply bool_decide_eq_true in A|by apply code_okb_ok].
  - apply bool_decide_eq_true.
  - by apply wholeb_ok.
Qed.
