(** The grammar of SpecGo.v: which kinds occur where. *)
From Verif Require Import SpecGo PureProofs ResetSpec ResetWp P_Scope P_Get GoProofs GoLayout GoKinds GoFunc GoType GoBridge.

Definition names : list kind := [KMethodReceiverName; KMethodReceiverType; KFuncName; KTypeName; KParamName; KParamType].
Ltac in_names := eapply bool_decide_unpack; vm_compute; exact Logic.I.
Lemma kind_new_names t : kind_new t ∉ names.
Proof.
  unfold kind_new. intros H. apply mem_kind_true in H. destruct t as [|c t]; [vm_compute in H; discriminate H|]. set (t' := c :: t) in *. clearbody t'.
  destruct (switch_find t' new_switch) as [k|] eqn:E.
  - apply switch_find_some in E as [E _].
    assert (A : Forall (fun k => mem_kind k names = false) new_switch) by (repeat (constructor; [reflexivity|]); constructor).
    rewrite Forall_forall in A. rewrite (A k E) in H. done.
  - clear E. repeat match type of H with mem_kind (if ?b then _ else _) _ = _ => destruct b; [discriminate H|] end. discriminate H.
Qed.
Definition lacks (K : kind) (xs : list lexeme) : Prop := Forall (fun x => snd x <> K) xs.
Lemma lacks_app K xs ys : lacks K (xs ++ ys) <-> lacks K xs /\ lacks K ys. Proof. apply Forall_app. Qed.
Lemma lacks_cons K x xs : lacks K (x :: xs) <-> snd x <> K /\ lacks K xs.
Proof. unfold lacks. split; [intros X; inversion X; by split|intros [? ?]; by constructor]. Qed.
Lemma lacks_nil K : lacks K []. Proof. constructor. Qed.
Lemma lx_names K w : K ∈ names -> snd (lx w) <> K.
Proof. intros H E. apply (kind_new_names w). unfold lx in E. cbn [snd] in E. by rewrite E. Qed.
Lemma now_names K k w : K ∈ names -> k <> K -> snd (now k w) <> K.
Proof. intros H N. unfold now. cbn [snd]. destruct (bool_decide _); [done|]. by apply (lx_names K w). Qed.
Lemma spelled_names K xs : K ∈ names -> spelled xs -> lacks K xs.
Proof.
  intros H. assert (D : forall d, dkind d <> K) by (intros d; revert K H; apply (Forall_forall (fun K => dkind d <> K)); destruct d; repeat (constructor; [discriminate|]); constructor).
  induction 1 as [|c ts Hc _ IH|w ts Hw _ _ IH|d t ts Nd [W _] _ IH|b k ts Nb _ IH]; constructor; try done; try exact (lx_names K _ H).
  - apply (D d).
  - apply (D DLine).
Qed.
Definition pen_lacks (K : kind) (p : pen) : Prop := forall w, snd (p_name p w) <> K /\ snd (p_type p w) <> K /\ snd (p_index p w) <> K.
Lemma inside_lacks K p : pen_lacks K p -> pen_lacks K (inside p).
Proof. intros P w. cbn [inside p_name p_type p_index]. split; [apply P|]. split; apply P. Qed.
Lemma pen_lacks_out_all K : K ∈ names -> (forall t p, pen_lacks K p -> lacks K (ty_out p t) /\ lacks K (unnamed p t)) /\ (forall ps p, pen_lacks K p -> lacks K (ps_out p ps)).
Proof.
  intros H. assert (L : forall w, snd (lx w) <> K) by (intros w; by apply lx_names).
  apply ty_plist_ind; cbn [ty_out unnamed ps_out]; intros; repeat match goal with
    | |- _ /\ _ => split
    | |- lacks _ (_ ++ _) => rewrite lacks_app
    | |- lacks _ (_ :: _) => rewrite lacks_cons
    | |- snd (lx _) <> _ => apply L
    | P : pen_lacks _ _ |- snd (p_name _ _) <> _ => apply P
    | P : pen_lacks _ _ |- snd (p_type _ _) <> _ => apply P
    | P : pen_lacks _ _ |- snd (p_index _ _) <> _ => apply P
    | |- lacks _ [] => apply lacks_nil
    | |- lacks _ (if ?o then _ else _) => destruct o
    | |- lacks _ (match ?o with _ => _ end) => destruct o; rewrite ?lacks_cons
    | X : forall p, pen_lacks _ p -> lacks _ (ty_out p ?t) /\ _ |- lacks _ (ty_out (inside _) ?t) => apply X; by apply inside_lacks
    | X : forall p, pen_lacks _ p -> lacks _ (ps_out p ?t) |- lacks _ (ps_out (inside _) ?t) => apply X; by apply inside_lacks
    | X : forall p, pen_lacks _ p -> lacks _ (ty_out p ?t) /\ _ |- lacks _ (ty_out _ ?t) => by apply X
    | X : forall p, pen_lacks _ p -> lacks _ (ty_out p ?t) /\ _ |- lacks _ (unnamed _ ?t) => by apply X
    | X : forall p, pen_lacks _ p -> lacks _ (ps_out p ?t) |- lacks _ (ps_out _ ?t) => by apply X
    end.
Qed.
Lemma pen_lacks_out K p : K ∈ names -> pen_lacks K p -> (forall t, lacks K (ty_out p t)) /\ (forall ps, lacks K (ps_out p ps)).
Proof. intros H P. split; [intros t|intros ps]; by apply pen_lacks_out_all. Qed.
Lemma settled_lacks K n t deep : K ∈ names -> n <> K -> t <> K -> pen_lacks K (settled n t deep).
Proof.
  intros H N T w. cbn [settled p_name p_type p_index]. split; [by apply now_names|]. split; [by apply now_names|]. destruct deep; [by apply now_names|by apply lx_names].
Qed.
Lemma source_lacks K : K ∈ names -> pen_lacks K source.
Proof. intros H w. cbn [source p_name p_type p_index]. by repeat split; apply lx_names. Qed.
Lemma parens_lacks K p ps : K ∈ names -> pen_lacks K p -> lacks K (in_parens (ps_out p ps)).
Proof.
  intros H P. unfold in_parens. rewrite lacks_cons, lacks_app, lacks_cons. split; [by apply lx_names|]. split; [by apply (pen_lacks_out K p H P)|]. split; [by apply lx_names|apply lacks_nil].
Qed.
Lemma first_lacks K p fs : K ∈ names -> pen_lacks K p -> lacks K (first_out p fs).
Proof.
  intros H P. assert (L : forall w, snd (lx w) <> K) by (intros w; by apply lx_names). destruct fs as [|o t r]; [apply lacks_nil|]. cbn [first_out].
  rewrite !lacks_app. split; [destruct o as [n|]; [|apply lacks_nil]; rewrite !lacks_cons; split; [apply P|]; split; [apply L|apply lacks_nil]|]. split; [by apply (pen_lacks_out K p H P)|].
  destruct r as [|o2 t2 r2]; [apply lacks_nil|]. rewrite !lacks_cons. split; [apply L|]. split; [apply L|]. by apply (pen_lacks_out K p H P).
Qed.
Lemma call_lacks K p o w fs : K ∈ names -> pen_lacks K p -> lacks K (call_out p o w fs).
Proof.
  intros H P. assert (L : forall w, snd (lx w) <> K) by (intros v; by apply lx_names). unfold call_out.
  rewrite !lacks_app, !lacks_cons. split.
  - destruct o as [n|]; [|apply lacks_nil]. rewrite !lacks_cons. split; [apply P|]. split; [apply L|apply lacks_nil].
  - split; [destruct (reads_as_type _ _); apply P|]. split; [apply L|]. rewrite lacks_app, lacks_cons. split; [by apply first_lacks|]. split; [apply L|apply lacks_nil].
Qed.
Lemma several_lacks K p rs : K ∈ names -> pen_lacks K p -> lacks K (several p rs).
Proof.
  intros H P. destruct rs as [|o1 t1 r1]; [apply lacks_nil|]. unfold several. rewrite lacks_cons. split; [by apply lx_names|]. by apply parens_lacks.
Qed.
Lemma calls_lacks K p ps o w fs rs : K ∈ names -> pen_lacks K p -> lacks K (group_out p (Calls ps o w fs rs)).
Proof.
  intros H P. assert (L : forall w, snd (lx w) <> K) by (intros v; by apply lx_names). cbn [group_out]. unfold in_parens at 1.
  rewrite !lacks_cons, !lacks_app, !lacks_cons. split; [apply L|]. split; [|split; [apply L|apply lacks_nil]].
  split; [|split; [by apply call_lacks|by apply several_lacks]].
  destruct ps as [|o1 t1 r1]; [apply lacks_nil|]. unfold before_last. rewrite lacks_app. split; [by apply (pen_lacks_out K p H P)|]. rewrite !lacks_cons. split; [apply L|]. split; [apply L|apply lacks_nil].
Qed.
Lemma tabs_lacks K n : K ∈ names -> lacks K (tabs n).
Proof. intros H. induction n as [|n IH]; [apply lacks_nil|]. cbn [tabs repeat]. rewrite lacks_cons. split; [by apply lx_names|exact IH]. Qed.
Lemma part_lacks K note : K ∈ names -> lacks K (note_part note).
Proof.
  intros H. destruct note as [c|]; [|apply lacks_nil]. cbn [note_part]. rewrite !lacks_cons. split; [by apply lx_names|]. split; [|apply lacks_nil].
  unfold comment; cbn [snd]; revert K H; apply (Forall_forall (fun K => KComment <> K)); in_names.
Qed.
Lemma rows_lacks K p n rows : K ∈ names -> pen_lacks K p -> lacks K (concat (map (prow_out p n) rows)).
Proof.
  intros H P. assert (L : forall w, snd (lx w) <> K) by (intros w; by apply lx_names).
  induction rows as [|[ps o] rows IH]; [apply lacks_nil|]. cbn [map concat]. rewrite lacks_app. split; [|exact IH]. unfold prow_out. cbn [fst snd].
  rewrite !lacks_app, lacks_cons, lacks_app, lacks_cons. split; [by apply tabs_lacks|]. split; [by apply (pen_lacks_out K p H P)|]. split; [apply L|]. split; [by apply (part_lacks K o)|split; [apply L|apply lacks_nil]].
Qed.
Lemma group_lacks K p g : K ∈ names -> pen_lacks K p -> lacks K (group_out p g).
Proof.
  intros H P. assert (L : forall w, snd (lx w) <> K) by (intros w; by apply lx_names). destruct g as [ps|n rows|ps o w fs rs|n rows o w fs rs note]; [by apply parens_lacks| |by apply calls_lacks|].
  - cbn [group_out]. unfold in_parens. rewrite lacks_cons. split; [apply L|]. cbn [app]. rewrite lacks_cons. split; [apply L|].
    rewrite !lacks_app, lacks_cons. split; [|split; [apply L|apply lacks_nil]]. split; [by apply rows_lacks|by apply tabs_lacks].
  - cbn [group_out]. unfold in_parens at 1. cbn [app]. rewrite !lacks_cons, !lacks_app, !lacks_cons, !lacks_app, !lacks_cons. split; [apply L|]. split; [apply L|]. split; [|split; [apply L|apply lacks_nil]].
    split; [by apply rows_lacks|]. split; [by apply tabs_lacks|]. split; [by apply call_lacks|]. split; [by apply several_lacks|]. split; [apply L|]. split; [by apply part_lacks|]. split; [apply L|by apply tabs_lacks].
Qed.
Lemma lx_lacks K (ts : list str) : K ∈ names -> lacks K (map lx ts).
Proof. intros H. induction ts as [|t ts IH]; cbn [map]; [apply lacks_nil|]. rewrite lacks_cons. split; [by apply lx_names|done]. Qed.
Lemma tps_lacks K tps : K ∈ names -> lacks K (tps_out tps).
Proof.
  intros H. unfold tps_out. destruct tps as [|t r]; [apply lacks_nil|]. rewrite lacks_cons, lacks_app, lacks_cons. split; [by apply lx_names|]. split; [apply lx_lacks; done|]. split; [by apply lx_names|apply lacks_nil].
Qed.
Lemma joined_lacks K w xs : K <> KParamType -> lacks K xs -> lacks K (joined w xs).
Proof.
  intros T. assert (P : forall w, lacks K (piece w)) by (intros [|c v]; [apply lacks_nil|]; cbn [piece]; rewrite lacks_cons; split; [by apply not_eq_sym|apply lacks_nil]).
  revert w. induction xs as [|[t k] xs IH]; intros w L; cbn [joined]; [apply P|]. apply lacks_cons in L as [L1 L2]. destruct (bool_decide _); [|by apply IH].
  rewrite lacks_app, lacks_cons. split; [apply P|]. split; [done|by apply IH].
Qed.
Lemma single_lacks K t : K ∈ names -> K <> KParamName -> K <> KParamType -> lacks K (res_type t).
Proof.
  intros H N T. assert (Ps : pen_lacks K param_pen) by (by apply settled_lacks; [|apply not_eq_sym..]).
  assert (J : forall t, lacks K (joined [] (ty_out source t))) by (intros u; apply joined_lacks; [done|]; by apply (pen_lacks_out K source H (source_lacks K H))).
  induction t as [w|w args|t IH|n t IH|m k _ t IH|c t IH|w|s t IH|ps|ps r IH]; try apply J; cbn [res_type].
  - rewrite !lacks_cons. split; [by apply not_eq_sym|]. split; [by apply lx_names|done].
  - by apply (pen_lacks_out K param_pen H Ps).
  - rewrite lacks_cons, lacks_app, lacks_cons. split; [by apply lx_names|]. split; [by apply parens_lacks|]. split; [by apply lx_names|done].
Qed.
Lemma res_lacks K r : K ∈ names -> K <> KParamName -> K <> KParamType -> lacks K (res_after r).
Proof.
  intros H N T. destruct r as [|t|t rs|ps]; cbn [res_after]; [apply lacks_nil|..]; rewrite ?lacks_cons.
  - split; [by apply lx_names|]. by apply single_lacks.
  - split; [by apply lx_names|]. rewrite lacks_app. split; [by apply single_lacks|]. destruct rs as [|o u r]; [apply lacks_nil|]. unfold several. rewrite lacks_cons. split; [by apply lx_names|].
    apply (group_lacks K param_pen (Flat (PCons o u r))); [done|]. by apply settled_lacks; [|apply not_eq_sym..].
  - split; [by apply lx_names|]. apply group_lacks; [done|]. by apply settled_lacks; [|apply not_eq_sym..].
Qed.
Lemma func_after_lacks K g r : K ∈ names -> K <> KParamName -> K <> KParamType -> lacks K (func_after g r).
Proof.
  intros H N T. destruct g as [| | |n0 rows0 o0 w0 fs0 rs0 note0]; [by apply res_lacks..|]. cbn [func_after]. pose proof (source_lacks K H) as S0.
  destruct r as [|t|t rs|ps]; cbn [res_src]; [apply lacks_nil|..]; rewrite lacks_cons; (split; [by apply lx_names|]).
  - by apply (pen_lacks_out K source H S0).
  - rewrite lacks_app. split; [by apply (pen_lacks_out K source H S0)|by apply several_lacks].
  - by apply group_lacks.
Qed.
(** The base of a receiver's type is the first of its kind. *)
Lemma base_first n K t : K ∈ names -> ty_ok t -> no_func t ->
  match base_word t with
  | Some w => exists xs ys, ty_out (settled n K false) t = xs ++ (w, K) :: ys /\ lacks K xs
  | None => lacks K (ty_out (settled n K false) t)
  end.
Proof.
  intros H. assert (L : forall w, snd (lx w) <> K) by (intros w; by apply lx_names).
  assert (Ls : forall t, lacks K (ty_out source t)) by (intros u; by apply (pen_lacks_out K source H (source_lacks K H))).
  assert (Pre : forall xs t, lacks K xs -> match base_word t with Some w => exists a b, ty_out (settled n K false) t = a ++ (w, K) :: b /\ lacks K a | None => lacks K (ty_out (settled n K false) t) end ->
     match base_word t with Some w => exists a b, xs ++ ty_out (settled n K false) t = a ++ (w, K) :: b /\ lacks K a | None => lacks K (xs ++ ty_out (settled n K false) t) end).
  { intros xs u Lx. destruct (base_word u) as [w|].
    - intros (a & b & -> & La). exists (xs ++ a), b. split; [by rewrite app_assoc|]. by apply lacks_app.
    - intros La. by apply lacks_app. }
  induction t as [w|w args|t IH|m t IH|m k _ t IH|c t IH|w|s t IH|ps|ps r IH]; cbn [ty_ok no_func base_word ty_out settled p_type p_index]; intros Ok T; try done.
  - unfold now. destruct (bool_decide (kind_new w = KRaw)) eqn:E; [exists [], []; split; [done|apply lacks_nil]|]. constructor; [|constructor]. by apply (lx_names K w).
  - destruct Ok as [[_ Kw] _]. rewrite (now_raw K w Kw). eexists [], _. split; [reflexivity|apply lacks_nil].
  - apply (Pre [_; _]); [|by apply IH]. rewrite !lacks_cons. split; [apply L|]. split; [apply L|apply lacks_nil].
  - apply (Pre [_; _; _]); [|by apply IH; [apply Ok|]]. rewrite !lacks_cons. split; [apply L|]. split; [apply L|]. split; [apply L|apply lacks_nil].
  - change (inside _) with source. destruct Ok as (Om & _ & _ & Ot). destruct (bool_decide (m = $"map")) eqn:Em.
    + apply bool_decide_eq_true in Em as ->. rewrite (now_lit K $"map") by reflexivity.
      change (lx $"map" :: lx $"[" :: ty_out source k ++ lx $"]" :: ?x) with ((lx $"map" :: lx $"[" :: ty_out source k) ++ [lx $"]"] ++ x). rewrite app_assoc.
      apply Pre; [|by apply IH; [|apply T]]. rewrite lacks_app, !lacks_cons. split; [split; [apply L|]; split; [apply L|apply Ls]|]. split; [apply L|apply lacks_nil].
    + destruct Om as [-> |[_ Km]]; [by rewrite bool_decide_eq_true_2 in Em|]. rewrite (now_raw K m Km). eexists [], _. split; [reflexivity|apply lacks_nil].
  - destruct Ok as (Om & Ot). destruct (bool_decide (c = $"chan")) eqn:Em.
    + apply bool_decide_eq_true in Em as ->. rewrite (now_lit K $"chan") by reflexivity. apply (Pre [_; _]); [|by apply IH]. rewrite !lacks_cons. split; [apply L|]. split; [apply L|apply lacks_nil].
    + destruct Om as [-> |[_ Km]]; [by rewrite bool_decide_eq_true_2 in Em|]. rewrite (now_raw K c Km). eexists [], _. split; [reflexivity|apply lacks_nil].
  - unfold now. destruct (bool_decide (kind_new w = KRaw)) eqn:E; [eexists [], _; split; [reflexivity|apply lacks_nil]|].
    rewrite !lacks_cons. split; [by apply (lx_names K w)|]. split; [apply L|]. split; [apply L|apply lacks_nil].
  - destruct Ok as (Os & Ot & _). rewrite (now_symbol K s Os). apply (Pre [_]); [|by apply IH]. rewrite lacks_cons. split; [apply L|apply lacks_nil].
Qed.
Lemma second_first n K t : K ∈ names -> n <> K -> ty_ok t -> no_func t ->
  match second_word t with
  | Some w => exists xs ys, unnamed (settled n K false) t = xs ++ (w, K) :: ys /\ lacks K xs
  | None => lacks K (unnamed (settled n K false) t)
  end.
Proof.
  intros H Nk. assert (L : forall w, snd (lx w) <> K) by (intros w; by apply lx_names).
  assert (Lw : forall w, snd (now n w) <> K) by (intros w; by apply now_names).
  assert (Ls : forall t, lacks K (ty_out source t)) by (intros u; by apply (pen_lacks_out K source H (source_lacks K H))).
  assert (Lp : forall ps, lacks K (ps_out source ps)) by (intros u; by apply (pen_lacks_out K source H (source_lacks K H))).
  assert (Pre : forall xs (o : option str) u, lacks K xs -> match o with Some w => exists a b, u = a ++ (w, K) :: b /\ lacks K a | None => lacks K u end ->
     match o with Some w => exists a b, xs ++ u = a ++ (w, K) :: b /\ lacks K a | None => lacks K (xs ++ u) end).
  { intros xs [w|] u Lx.
    - intros (a & b & -> & La). exists (xs ++ a), b. split; [by rewrite app_assoc|]. by apply lacks_app.
    - intros La. by apply lacks_app. }
  induction t as [w|w args|t IH|m t IH|m k _ t IH|c t IH|w|s t IH|ps|ps r IH]; cbn [ty_ok no_func second_word unnamed settled p_name p_index]; intros Ok T; try done.
  - rewrite lacks_cons. split; [apply Lw|apply lacks_nil].
  - change (inside _) with source. rewrite !lacks_cons, lacks_app, lacks_cons. split; [apply Lw|]. split; [apply L|]. split; [apply Lp|]. split; [apply L|apply lacks_nil].
  - apply (Pre [_; _]); [|by apply IH]. rewrite !lacks_cons. split; [apply L|]. split; [apply L|apply lacks_nil].
  - apply (Pre [_; _; _]); [|by apply IH; [apply Ok|]]. rewrite !lacks_cons. split; [apply L|]. split; [apply L|]. split; [apply L|apply lacks_nil].
  - change (inside _) with source. destruct Ok as (Om & _ & _ & Ot). change (now n m :: lx $"[" :: ty_out source k ++ lx $"]" :: ?x) with ((now n m :: lx $"[" :: ty_out source k) ++ [lx $"]"] ++ x). rewrite app_assoc.
    assert (Lx : lacks K ((now n m :: lx $"[" :: ty_out source k) ++ [lx $"]"])).
    { rewrite lacks_app, !lacks_cons. split; [split; [apply Lw|]; split; [apply L|apply Ls]|]. split; [apply L|apply lacks_nil]. }
    destruct (bool_decide (m = $"map")); (apply Pre; [done|]); [apply IH; [done|apply T]|]. apply (base_first n K t); [done|done|apply T].
  - destruct Ok as (Om & Ot). assert (Lx : lacks K [now n c; lx $" "]) by (rewrite !lacks_cons; split; [apply Lw|]; split; [apply L|apply lacks_nil]).
    destruct (bool_decide (c = $"chan")); (apply (Pre [_; _]); [done|]); [by apply IH|]. by apply (base_first n K t).
  - rewrite !lacks_cons. split; [apply Lw|]. split; [apply L|]. split; [apply L|apply lacks_nil].
  - destruct Ok as (Os & Ot & _). apply (Pre [_]); [|by apply IH]. rewrite lacks_cons. split; [apply Lw|apply lacks_nil].
Qed.

(** ** Keywords *)
Definition has (K : kind) (xs : list lexeme) : bool := existsb (fun x => bool_decide (snd x = K)) xs.
Lemma has_app K xs ys : has K (xs ++ ys) = has K xs || has K ys. Proof. apply existsb_app. Qed.
Lemma has_cons K x xs : has K (x :: xs) = bool_decide (snd x = K) || has K xs. Proof. done. Qed.
Lemma has_nil K : has K [] = false. Proof. done. Qed.
Definition kw_kind (K : kind) : Prop := K = KStruct \/ K = KInterface.
Lemma kw_not K k : kw_kind K -> k ∈ KRaw :: KBasic :: KNumber :: names -> bool_decide (k = K) = false.
Proof.
  intros H Hk. apply bool_decide_eq_false_2. revert k Hk. apply (Forall_forall (fun k => k <> K)). destruct H as [-> | ->]; repeat (constructor; [discriminate|]); constructor.
Qed.
Lemma kw_of K : kw_kind K -> K ∈ map snd reserved /\ kind_new (k_text K) = K /\ forall d, ~ opener d `prefix_of` k_text K.
Proof.
  intros [-> | ->]; (split; [in_names|]); (split; [reflexivity|]); intros [] [q E]; discriminate E.
Qed.
(** The keyword is the only text of its kind. *)
Definition hon (K : kind) (x : lexeme) : Prop := snd x = K -> fst x = k_text K.
Lemma hon_lx K w : kw_kind K -> hon K (lx w).
Proof. intros H E. destruct (kw_of K H) as (R & _). by apply kind_new_fixed. Qed.
Lemma hon_not K x : kw_kind K -> snd x ∈ KRaw :: KComment :: KString :: names -> hon K x.
Proof.
  intros H Hk E. exfalso. revert Hk E. generalize (snd x). apply (Forall_forall (fun k => k = K -> False)).
  destruct H as [-> | ->]; repeat (constructor; [discriminate|]); constructor.
Qed.
Lemma hon_now K k w : kw_kind K -> k ∈ names -> hon K (now k w).
Proof. intros H Hk. unfold now. destruct (bool_decide _); [|by apply (hon_lx K w)]. apply hon_not; [done|]. by right; right; right. Qed.
Lemma hon_name K k w : kw_kind K -> k ∈ names -> hon K (w, k).
Proof. intros H Hk. apply hon_not; [done|]. by right; right; right. Qed.
Lemma hon_comment K c : kw_kind K -> hon K (comment c). Proof. intros H. apply hon_not; [done|]. cbn [comment snd]. right. left. Qed.
Lemma hon_string K c : kw_kind K -> hon K (c, KString). Proof. intros H. apply hon_not; [done|]. cbn [snd]. right. right. left. Qed.
Definition pen_hon (K : kind) (p : pen) : Prop := forall w, hon K (p_name p w) /\ hon K (p_type p w) /\ hon K (p_index p w).
Lemma inside_hon K p : pen_hon K p -> pen_hon K (inside p).
Proof. intros P w. cbn [inside p_name p_type p_index]. split; [apply P|]. split; apply P. Qed.
Lemma settled_hon K n t deep : kw_kind K -> n ∈ names -> t ∈ names -> pen_hon K (settled n t deep).
Proof. intros H N T w. cbn [settled p_name p_type p_index]. split; [by apply hon_now|]. split; [by apply hon_now|]. destruct deep; [by apply hon_now|by apply hon_lx]. Qed.
Lemma source_hon K : kw_kind K -> pen_hon K source.
Proof. intros H w. cbn [source p_name p_type p_index]. by repeat split; apply hon_lx. Qed.
Ltac hons := repeat (rewrite ?Forall_app, ?Forall_cons); repeat match goal with
    | |- _ /\ _ => split
    | H : kw_kind _ |- hon _ (lx _) => apply (hon_lx _ _ H)
    | H : kw_kind _ |- hon _ (comment _) => apply (hon_comment _ _ H)
    | H : kw_kind _ |- hon _ (_, KString) => apply (hon_string _ _ H)
    | H : kw_kind _ |- hon _ (_, _) => apply (hon_name _ _ _ H); in_names
    | H : kw_kind _ |- hon _ (now _ _) => apply (hon_now _ _ _ H); in_names
    | P : pen_hon _ ?p |- hon _ (p_name ?p _) => apply P
    | P : pen_hon _ ?p |- hon _ (p_type ?p _) => apply P
    | P : pen_hon _ ?p |- hon _ (p_index ?p _) => apply P
    | |- Forall _ [] => constructor
    end.
Lemma hon_out_all K : kw_kind K -> (forall t p, pen_hon K p -> Forall (hon K) (ty_out p t) /\ Forall (hon K) (unnamed p t)) /\ (forall ps p, pen_hon K p -> Forall (hon K) (ps_out p ps)).
Proof.
  intros H. apply ty_plist_ind; cbn [ty_out unnamed ps_out]; intros; repeat match goal with X : forall p, pen_hon _ p -> Forall _ (ty_out _ ?t) /\ Forall _ (unnamed _ ?t) |- _ =>
    assert (forall p, pen_hon K p -> Forall (hon K) (ty_out p t)) by (intros; by apply X); assert (forall p, pen_hon K p -> Forall (hon K) (unnamed p t)) by (intros; by apply X); clear X end; try split; hons; repeat case_bool_decide; auto using inside_hon.
  - destruct name; hons.
  - destruct (reads_as_type name t); auto.
  - match goal with |- Forall _ (match ?o with _ => _ end) => destruct o end; hons; auto.
Qed.
Lemma hon_ty K p t : kw_kind K -> pen_hon K p -> Forall (hon K) (ty_out p t). Proof. intros H. by apply hon_out_all. Qed.
Lemma hon_ps K p ps : kw_kind K -> pen_hon K p -> Forall (hon K) (ps_out p ps). Proof. intros H. by apply hon_out_all. Qed.
Lemma hon_repeat K n w : kw_kind K -> Forall (hon K) (repeat (lx w) n). Proof. intros H. induction n as [|n IH]; cbn [repeat]; hons; done. Qed.
Lemma hon_call K p o w fs : kw_kind K -> pen_hon K p -> Forall (hon K) (call_out p o w fs).
Proof.
  intros H P. unfold call_out. hons.
  - destruct o as [n|]; [|constructor]. hons; apply P.
  - destruct (reads_as_type _ _); apply P.
  - destruct fs as [|o1 t1 r1]; [constructor|]. cbn [first_out]. hons; [destruct o1; hons; apply P|by apply hon_ty|]. destruct r1; [constructor|]. hons. by apply hon_ps.
Qed.
Lemma hon_sev K p rs : kw_kind K -> pen_hon K p -> Forall (hon K) (several p rs).
Proof. intros H P. destruct rs as [|o1 t1 r1]; [constructor|]. unfold several, in_parens. hons. by apply hon_ps. Qed.
Lemma hon_part K note : kw_kind K -> Forall (hon K) (note_part note).
Proof. intros H. destruct note as [c|]; cbn [note_part]; hons. Qed.
Lemma hon_prows K p n rows : kw_kind K -> pen_hon K p -> Forall (hon K) (concat (map (prow_out p n) rows)).
Proof.
  intros H P. induction rows as [|[ps o] rows IH]; cbn [map concat]; [constructor|]. unfold prow_out at 1. cbn [fst snd]. hons; [by apply hon_repeat|by apply hon_ps|destruct o; hons|done].
Qed.
Lemma hon_group K p g : kw_kind K -> pen_hon K p -> Forall (hon K) (group_out p g).
Proof.
  intros H P. destruct g as [ps|n rows|ps o w fs rs|n rows o w fs rs note]; cbn [group_out]; unfold in_parens at 1; hons.
  - by apply hon_ps.
  - by apply hon_prows.
  - by apply hon_repeat.
  - destruct ps as [|o1 t1 r1]; [constructor|]. unfold before_last. hons. by apply hon_ps.
  - by apply hon_call.
  - by apply hon_sev.
  - by apply hon_prows.
  - by apply hon_repeat.
  - by apply hon_call.
  - by apply hon_sev.
  - by apply hon_part.
  - by apply hon_repeat.
Qed.
Lemma hon_joined K w xs : kw_kind K -> Forall (hon K) xs -> Forall (hon K) (joined w xs).
Proof.
  intros H. assert (P : forall w, Forall (hon K) (piece w)) by (intros [|c v]; cbn [piece]; hons).
  revert w. induction xs as [|[t k] xs IH]; intros w L; cbn [joined]; [apply P|]. apply Forall_cons in L as [L1 L2]. destruct (bool_decide _); [|by apply IH].
  hons; [apply P|done|by apply IH].
Qed.
Lemma hon_single K t : kw_kind K -> Forall (hon K) (res_type t).
Proof.
  intros H. assert (Ps : pen_hon K param_pen) by (apply settled_hon; [done|in_names..]).
  assert (J : forall t, Forall (hon K) (joined [] (ty_out source t))) by (intros u; apply hon_joined; [done|]; apply hon_ty; [done|by apply source_hon]).
  induction t as [w|w args|t IH|n t IH|m k _ t IH|c t IH|w|s t IH|ps|ps r IH]; try apply J; cbn [res_type].
  - hons. done.
  - by apply hon_ty.
  - unfold in_parens. hons; [by apply hon_ps|done].
Qed.
Lemma hon_several K p rs : kw_kind K -> pen_hon K p -> Forall (hon K) (several p rs).
Proof. intros H P. destruct rs as [|o t r]; [constructor|]. unfold several, in_parens. hons. by apply hon_ps. Qed.
Lemma hon_res K r : kw_kind K -> Forall (hon K) (res_after r).
Proof.
  intros H. assert (Ps : pen_hon K param_pen) by (apply settled_hon; [done|in_names..]).
  destruct r as [|t|t rs|g]; cbn [res_after]; hons; [by apply hon_single|by apply hon_single|by apply hon_several|by apply hon_group].
Qed.
Lemma hon_note K note : kw_kind K -> Forall (hon K) (note_out note).
Proof. intros H. destruct note as [c|]; cbn [note_out]; hons. Qed.
Lemma hon_after K t : kw_kind K -> Forall (hon K) (after_name t).
Proof.
  intros H. assert (Ps : pen_hon K param_pen) by (apply settled_hon; [done|in_names..]). assert (So : pen_hon K source) by (by apply source_hon).
  induction t as [w|w args|t IH|n t IH|m k _ t IH|c t IH|w|s t IH|ps|ps r IH]; cbn [after_name]; unfold in_parens; try (by apply hon_ty); hons; try done; try (by apply hon_ty); try (by apply hon_ps); by apply hon_single.
Qed.
Lemma hon_first K t : kw_kind K -> Forall (hon K) (named_first t).
Proof.
  intros H. assert (Ps : pen_hon K param_pen) by (apply settled_hon; [done|in_names..]). assert (So : pen_hon K source) by (by apply source_hon).
  induction t as [w|w args|t IH|n t IH|m k _ t IH|c t IH|w|s t IH|ps|ps r IH]; cbn [named_first]; unfold in_parens; try (destruct (bool_decide _)); hons; try done; try (by apply hon_ty); try (by apply hon_ps); try (by apply hon_single); by apply hon_after.
Qed.
Lemma hon_fres K r : kw_kind K -> Forall (hon K) (fres_after r).
Proof. intros H. destruct r as [|t|t rs|g]; try (by apply hon_res); cbn [fres_after]; hons; [by apply hon_first|by apply hon_first|]. apply hon_several; [done|]. apply settled_hon; [done|in_names..]. Qed.
Lemma hon_type K t rs note : kw_kind K -> Forall (hon K) (type_after t rs note).
Proof.
  intros H. assert (Ps : pen_hon K param_pen) by (apply settled_hon; [done|in_names..]). assert (So : pen_hon K source) by (by apply source_hon).
  pose proof (hon_note K note H) as No.
  assert (O : forall t, Forall (hon K) (one_node t note)) by (intros u; unfold one_node; destruct note; hons).
  induction t as [w|w args|t IH|n t IH|m k _ t IH|c t IH|w|s t IH|ps|ps r IH]; cbn [type_after]; unfold in_parens; try (destruct (bool_decide _)); try apply O; hons; try done; try (by apply hon_ty); try (by apply hon_ps); try (by apply hon_several); by apply hon_first.
Qed.
Lemma hon_head K name tps : kw_kind K -> Forall (hon K) (type_head (name, KTypeName) tps).
Proof. intros H. unfold type_head, tps_out. destruct tps as [|t tps]; hons. cbn [map]. hons. induction tps as [|u tps IH]; cbn [map]; hons. done. Qed.
Lemma hon_rows {A} K (f : A -> list lexeme) rows : (forall r, Forall (hon K) (f r)) -> Forall (hon K) (concat (map f rows)).
Proof. intros H. induction rows as [|r rows IH]; cbn [map concat]; [constructor|]. apply Forall_app. by split. Qed.
Lemma hon_lxs K ws : kw_kind K -> Forall (hon K) (map lx ws).
Proof. intros H. induction ws as [|w ws IH]; cbn [map]; hons. done. Qed.
Lemma hon_tail K tag note : kw_kind K -> Forall (hon K) (tail_out tag note).
Proof. intros H. unfold tail_out. destruct tag as [[n0 s]|]; destruct note as [[n1 s1]|]; hons; try (by apply hon_repeat). Qed.
Lemma hon_names K p n more pad : kw_kind K -> pen_hon K p -> Forall (hon K) (names_out p n more pad).
Proof. intros H P. unfold names_out. hons; [|by apply (hon_repeat K (Datatypes.S pad))]. induction more as [|m more IH]; cbn [map concat]; hons; done. Qed.
Lemma hon_srow K p d r : kw_kind K -> pen_hon K p -> Forall (hon K) (srow_out p d r).
Proof.
  intros H P. assert (Tb : Forall (hon K) (tabs d)) by (by apply hon_repeat).
  destruct r as [n more pad t rs tag note|n more pad hs w|tag note|t tag note|c|]; cbn [srow_out]; hons; try done; try (by apply hon_tail); try (by apply hon_names); try (by apply hon_ty); try (by apply hon_several; [|apply inside_hon]).
  - apply hon_rows. intros [|m|m k]; cbn [holder_out]; hons. apply hon_ty; [done|by apply inside_hon].
  - destruct t; cbn [embed_out]; try (by apply hon_ty). destruct (tail_out tag note); hons; try (by apply hon_ty).
Qed.
Lemma hon_srows K p rows : kw_kind K -> pen_hon K p -> forall d, Forall (hon K) (srows_out p d rows).
Proof.
  intros H P. induction rows as [|r rows IH]; intros d; [constructor|]. cbn [srows_out].
  destruct r as [n more pad t rs tag note|n more pad hs w|tag note|t tag note|c|]; apply Forall_app; (split; [by apply hon_srow|apply IH]).
Qed.
Lemma decl_hon K d : kw_kind K -> decl_ok d -> decl_kind d = $"type" -> (forall code, d <> DGroup code) -> Forall (hon K) (decl_after d).
Proof.
  intros H. assert (Pp : pen_hon K param_pen) by (apply settled_hon; [done|in_names..]). assert (Fp : pen_hon K field_pen) by (apply settled_hon; [done|in_names..]).
  assert (No : forall o, Forall (hon K) (note_out o)) by (intros [c|]; cbn [note_out]; hons).
  destruct d as [recv name tps ps r body note|name tps rows note|name tps rows note|name tps alias t rs note|name tps ps r note|code|kw code|c|c]; cbn [decl_after decl_kind decl_ok]; intros Ok Kd Ng; try done; try (by destruct (Ng code)).
  - hons; [by apply hon_head|by apply hon_srows|apply No].
  - hons; [by apply hon_head| |apply No]. apply hon_rows. intros [n ps r nt|w more nt|c|]; cbn [irow_after irow_src]; hons; [by apply hon_group|by apply hon_res|apply No|by apply hon_lxs|apply No].
  - hons; [by apply hon_head| |by apply hon_type]. destruct alias; cbn [alias_out]; hons.
  - hons; [by apply hon_head|by apply hon_group|by apply hon_fres|apply No].
  - exfalso. destruct Ok as [Ok _]. rewrite Kd in Ok. revert Ok. knot.
Qed.
Lemma hon_has K xs : kw_kind K -> Forall (hon K) xs -> has K xs = bool_decide (lx (k_text K) ∈ xs).
Proof.
  intros H F. destruct (kw_of K H) as (_ & N & _). apply Bool.eq_iff_eq_true. unfold has. rewrite existsb_exists, bool_decide_eq_true. split.
  - intros (x & Hx & E). apply bool_decide_eq_true in E. apply elem_of_list_In in Hx. rewrite Forall_forall in F. pose proof (F x Hx E) as Ft.
    assert (X : x = lx (k_text K)) by (destruct x as [t k]; cbn [fst snd] in *; unfold lx; rewrite N, Ft, E; reflexivity). by rewrite <- X.
  - intros Hx. exists (lx (k_text K)). split; [by apply elem_of_list_In|]. apply bool_decide_eq_true. exact N.
Qed.
