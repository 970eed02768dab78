(** C63: goroutines that share no nodes do not interfere.
    C64: parsing allocates one node per token. *)
From Verif Require Import Scope Node Extract SpecNode SpecLex SpecConc Conc ExtractCount P_Lex P_Scope LocalProofs.

Lemma linked_reach e h (r : routine) hs (rs : routine) l : linked e h r hs rs -> reach h (fst r) l -> exists a, e a l.
Proof.
  intros [H T _ _ _] R. induction R as [l Hl|a b _ [a' IH] N|a b _ [a' IH] N].
  - apply elem_of_list_lookup in Hl as [i Hi]. destruct (Forall2_lookup_r _ _ _ _ _ T Hi) as (p & _ & P). destruct p as [a|]; [by exists a|done].
  - pose proof (Enext e h hs h (Some a') (Some a) H IH) as Q. rewrite N in Q. destruct (next_of hs (Some a')) as [b'|]; [by exists b'|done].
  - pose proof (Eprev e h hs h (Some a') (Some a) H IH) as Q. rewrite N in Q. destruct (prev_of hs (Some a')) as [b'|]; [by exists b'|done].
Qed.

(** ** C63 *)
(** [cs i] is what goroutine [i] does; [rs] are the goroutines, which hold nodes of
    the heap [h] and can get at none of one another's.  If each of them, alone on
    [h], takes its turns without a panic or an endless loop, then they take them
    so on one heap too, in whatever order: no goroutine sees a difference, and
    afterwards they still share nothing.  The orders in which Go goes through its
    tables may differ from step to step and between the runs. *)
Theorem C63_no_interference : forall ords sords sched h cs (rs : list routine) (FS : nat -> heap * routine),
  (forall k, any_order (ords k)) -> (forall i k, any_order (sords i k)) ->
  SpecNode.wf h -> (forall i r, rs !! i = Some r -> Forall (live h) (fst r)) ->
  (forall i j r r' l, i <> j -> rs !! i = Some r -> rs !! j = Some r' -> reach h (fst r) l -> ~ reach h (fst r') l) ->
  (forall i r, rs !! i = Some r -> alone (sords i) (turns i sched) h (cs i) r = Ok (FS i)) ->
  exists h' rs', together ords sched h cs rs = Ok (h', rs') /\ length rs' = length rs /\ SpecNode.wf h' /\
    (forall i r, rs' !! i = Some r -> snd r = snd (snd (FS i))) /\
    (forall i j r r' l, i <> j -> rs' !! i = Some r -> rs' !! j = Some r' -> reach h' (fst r) l -> ~ reach h' (fst r') l).
Proof.
  intros ords sords sched h cs rs FS O SO W Lv D Al.
  destruct (together_alone ords sords sched h cs rs FS O SO W Lv D Al) as (h' & rs' & T & L & W' & E' & Lk & Ap).
  exists h', rs'. split; [done|]. split; [done|]. split; [done|]. split.
  - intros i r Er. symmetry. apply (Lk i r Er).
  - intros i j r r' l Nij Ei Ej R R'.
    destruct (linked_reach _ _ _ _ _ _ (Lk i r Ei) R) as [a Ha], (linked_reach _ _ _ _ _ _ (Lk j r' Ej) R') as [b Hb].
    apply (Ap i j Nij) with (a := a) (b := b) (x := l); [rewrite <- L; by eapply lookup_lt_Some..|done|done].
Qed.
(** What a goroutine sees does not depend on the schedule: two schedules with as
    many turns for it show it the same. *)
Theorem C63_schedule_irrelevant : forall ords1 ords2 sords1 sords2 sched1 sched2 h cs (rs : list routine) (FS1 FS2 : nat -> heap * routine) i,
  (forall k, any_order (ords1 k)) -> (forall k, any_order (ords2 k)) -> (forall i k, any_order (sords1 i k)) -> (forall i k, any_order (sords2 i k)) ->
  SpecNode.wf h -> (forall i r, rs !! i = Some r -> Forall (live h) (fst r)) ->
  (forall i j r r' l, i <> j -> rs !! i = Some r -> rs !! j = Some r' -> reach h (fst r) l -> ~ reach h (fst r') l) ->
  (forall i r, rs !! i = Some r -> alone (sords1 i) (turns i sched1) h (cs i) r = Ok (FS1 i)) ->
  (forall i r, rs !! i = Some r -> alone (sords2 i) (turns i sched2) h (cs i) r = Ok (FS2 i)) ->
  turns i sched1 = turns i sched2 ->
  exists h1 rs1 h2 rs2, together ords1 sched1 h cs rs = Ok (h1, rs1) /\ together ords2 sched2 h cs rs = Ok (h2, rs2) /\
    snd <$> rs1 !! i = snd <$> rs2 !! i.
Proof.
  intros ords1 ords2 sords1 sords2 sched1 sched2 h cs rs FS1 FS2 i O1 O2 S1 S2 W Lv D A1 A2 Et.
  destruct (C63_no_interference ords1 sords1 sched1 h cs rs FS1 O1 S1 W Lv D A1) as (h1 & rs1 & T1 & L1 & _ & V1 & _).
  destruct (C63_no_interference ords2 sords2 sched2 h cs rs FS2 O2 S2 W Lv D A2) as (h2 & rs2 & T2 & L2 & _ & V2 & _).
  exists h1, rs1, h2, rs2. split; [done|]. split; [done|].
  destruct (rs1 !! i) as [r1|] eqn:E1.
  2: { apply lookup_ge_None in E1. rewrite (lookup_ge_None_2 rs2 i) by lia. done. }
  destruct (lookup_lt_is_Some_2 rs2 i) as [r2 E2]; [apply lookup_lt_Some in E1; lia|]. rewrite E2. cbn. f_equal.
  rewrite (V1 i r1 E1), (V2 i r2 E2).
  destruct (lookup_lt_is_Some_2 rs i) as [r Er]; [apply lookup_lt_Some in E1; lia|].
  (* the runs alone with the two families of orders agree: goroutine i by itself *)
  assert (AA : alone (sords1 i) (turns i sched1) h (cs i) r = Ok (FS1 i)) by (by apply A1).
  assert (BB : alone (sords2 i) (turns i sched2) h (cs i) r = Ok (FS2 i)) by (by apply A2).
  rewrite <- Et in BB.
  destruct (C63_no_interference (sords2 i) (fun _ => sords1 i) (replicate (turns i sched1) 0) h (fun _ => cs i) [r] (fun _ => FS1 i)) as (h3 & rs3 & T3 & L3 & _ & V3 & _).
  - intros k. apply S2.
  - intros _ k. apply S1.
  - done.
  - intros [|j] r' Ej; [|done]. cbn in Ej. injection Ej as <-. by eapply Lv.
  - intros j k r' r'' l Njk Ej Ek. apply lookup_lt_Some in Ej, Ek. cbn in Ej, Ek. lia.
  - intros [|j] r' Ej; [|done]. cbn in Ej. injection Ej as <-.
    assert (X : turns 0 (replicate (turns i sched1) 0) = turns i sched1) by (generalize (turns i sched1); induction n as [|n IH]; [done|]; cbn [replicate]; rewrite turns_cons, IH; done).
    by rewrite X.
  - assert (Y : forall n ords h c (r : routine), together ords (replicate n 0) h (fun _ => c) [r] = res_bind (alone ords n h c r) (fun x => Ok (fst x, [snd x]))).
    { clear. induction n as [|n IH]; intros ords h c r; [done|]. cbn [replicate together alone lookup list_lookup]. destruct (turn (ords 0) h c r) as [[h' r']| |]; try done.
      cbn [res_bind fst snd]. change (<[0:=r']> [r]) with [r']. apply IH. }
    rewrite Y, BB in T3. cbn [res_bind] in T3. injection T3 as <- <-. symmetry. apply (V3 0). done.
Qed.

(** The footprint of one step: it looks at no node that the goroutine cannot get
    at, and changes none - so two steps of different goroutines touch no common
    node, and it is enough to interleave whole steps. *)
Theorem C63_footprint : forall ord ord' h g K c h' K' o, any_order ord -> any_order ord' -> SpecNode.wf h -> SpecNode.wf g -> Forall (live h) K ->
  length h <= length g -> (forall l, reach h K l -> g !! l = h !! l) -> step ord h K c = Ok (h', K', o) ->
  exists g' K'', step ord' g K c = Ok (g', K'', o) /\ SpecNode.wf g' /\ (forall l n, g !! l = Some n -> ~ reach h K l -> g' !! l = Some n) /\
    (forall l, reach g' K'' l -> reach h K l \/ length g <= l).
Proof.
  intros ord ord' h g K c h' K' o O O' W Wg Lv L A E.
  assert (H : Eh (fun a b => a = b /\ reach h K a) g h g).
  { constructor.
    - by intros a b d [-> _] [-> _].
    - by intros a b d [-> _] [-> _].
    - intros a b [<- Ra]. assert (La : a < length h).
      { destruct (eh_at _ _ _ _ (Eh_self h K W Lv) a a (conj eq_refl Ra)) as (n & _ & Q & _). by apply lookup_lt_Some in Q. }
      destruct (eh_at _ _ _ _ (Eh_self h K W Lv) a a (conj eq_refl Ra)) as (n & n' & Q & Q' & N).
      exists n, n. split; [done|]. rewrite A by done. split; [done|]. rewrite Q in Q'. injection Q' as <-. exact N.
    - done.
    - done. }
  assert (F : Forall2 (Ep (fun a b => a = b /\ reach h K a)) K K).
  { assert (X : forall K0, (forall p, p ∈ K0 -> p ∈ K) -> Forall2 (Ep (fun a b => a = b /\ reach h K a)) K0 K0).
    { induction K0 as [|p K0 IH]; intros HK; constructor; [|apply IH; intros q Hq; apply HK; by right].
      destruct p as [l|]; [|done]. split; [done|]. apply reach_here, HK. by left. }
    by apply X. }
  destruct (Estep _ g h g K K ord ord' c h' K' o O O' W Wg L H F E) as (e' & g' & K2 & E2 & Wd & G & F' & L').
  exists g', K2. split; [done|]. split; [|split].
  - eapply step_wf; [exact O'|exact Wg| |exact E2]. by destruct (Elive _ _ _ _ _ _ H F).
  - intros l n Hl N. apply (eh_frame _ _ _ _ G l n Hl). intros a Ha. destruct (proj2 Wd a l Ha) as [[-> Hr]|Hl']; [done|]. apply lookup_lt_Some in Hl. lia.
  - intros l Hl. assert (Q : exists a, e' a l).
    { clear -Hl G F'. induction Hl as [l Hl|a b _ [a' IH] N|a b _ [a' IH] N].
      - apply elem_of_list_lookup in Hl as [i Hi]. destruct (Forall2_lookup_r _ _ _ _ _ F' Hi) as (p & _ & P). destruct p as [a|]; [by exists a|done].
      - pose proof (Enext e' g h' g' (Some a') (Some a) G IH) as Q. rewrite N in Q. destruct (next_of h' (Some a')) as [b'|]; [by exists b'|done].
      - pose proof (Eprev e' g h' g' (Some a') (Some a) G IH) as Q. rewrite N in Q. destruct (prev_of h' (Some a')) as [b'|]; [by exists b'|done]. }
    destruct Q as [a Ha]. destruct (proj2 Wd a l Ha) as [[-> Hr]|Hl']; [by left|by right].
Qed.

(** Two goroutines: one reads a file and takes out the node after its root, the
    other makes nodes and joins them. *)
Definition prog_parse : program := fun seen =>
  match seen with
  | [] => CParse 0 ($"package a" ++ [c_nl] ++ $"var x int")
  | [_] => CCall (OTakeNext (Some 0))
  | [_; _] => CNext (Some 0)
  | _ => CRead (Some 0)
  end.
Definition prog_nodes : program := fun seen =>
  match seen with
  | [] => CCall (ONewNodes 7%Z [$"a"; $"b"])
  | [_] => CCall (ONewNode 8%Z $"c" [])
  | [_; _] => CCall (OInsertNext (Some 0) (Some 1))
  | _ => CNext (Some 0)
  end.
Definition progs (i : nat) : program := if decide (i = 0) then prog_parse else prog_nodes.
Definition ex_sched : list nat := [0; 1; 1; 0; 0; 1; 1; 0].
(** They hold no nodes at first, so they share none. *)
Example ex_C63 : exists FS : nat -> heap * routine,
  any_order src_ord /\
  (forall i (r : routine), [([], []); ([], [])] !! i = Some r -> alone (fun _ => src_ord) (turns i ex_sched) [] (progs i) r = Ok (FS i)) /\
  snd (snd (FS 0)) = [SawScopes [(1%Z, $"package", Some 0); (2%Z, $"var", Some 1)]; SawNodes [Some 2]; SawNodes [Some 3]; SawNode 0%Z $"package" KPackage] /\
  snd (snd (FS 1)) = [SawNodes [Some 0]; SawNodes [Some 1]; SawNodes [None; None]; SawNodes [Some 1]].
Proof.
  exists (fun i => match alone (fun _ => src_ord) 4 [] (progs i) ([], []) with Ok x => x | _ => ([], ([], [])) end).
  split; [apply ex_order|]. split; [|split; vm_compute; reflexivity].
  intros [|[|i]] r E; [injection E as <-; vm_compute; reflexivity..|done].
Qed.
(** Goroutines that share nodes do see each other: nothing is locked. *)
Definition ex_shared : heap := fst (new_nodes [] 0%Z [$"a"; $"b"]).
Definition prog_watch : program := fun seen => match seen with [] => CNext (Some 0) | _ => CRead (Some 0) end.
Definition prog_take : program := fun _ => CCall (OTakeNext (Some 0)).
Theorem C63_shared_nodes_refuted : ~ forall ord sched1 sched2 h cs (rs : list routine) i, any_order ord -> SpecNode.wf h -> (forall i r, rs !! i = Some r -> Forall (live h) (fst r)) ->
  turns i sched1 = turns i sched2 ->
  match together (fun _ => ord) sched1 h cs rs, together (fun _ => ord) sched2 h cs rs with
  | Ok (_, rs1), Ok (_, rs2) => snd <$> rs1 !! i = snd <$> rs2 !! i | _, _ => True end.
Proof.
  intros H. specialize (H src_ord [0; 1] [1; 0] ex_shared (fun i => if decide (i = 0) then prog_watch else prog_take) [([Some 0], []); ([Some 0], [])] 0 (proj1 ex_order)).
  assert (W : SpecNode.wf ex_shared).
  { eapply (NodeHist.hist_wf [] [ONewNodes 0%Z [$"a"; $"b"]]); [apply NodeHist.wf_nil|]. eapply hist_cons; [constructor|reflexivity|]. apply hist_nil. }
  specialize (H W). assert (L : forall i (r : routine), [([Some 0], []); ([Some 0], [])] !! i = Some r -> Forall (live ex_shared) (fst r)).
  { intros [|[|i]] r E; try discriminate E; injection E as <-; (constructor; [cbn; eapply Nat.ltb_lt; vm_compute; reflexivity|constructor]). }
  specialize (H L eq_refl). vm_compute in H. discriminate H.
Qed.

(** ** C64 *)
(** Parsing allocates one node per token, whatever the map order: the texts of the
    new nodes, put together, are the input, so there are at most as many of them
    as it has bytes. *)
Theorem C64_nodes_per_token : forall ord h n text h' scs, any_order ord -> SpecNode.wf h -> parse_scope ord h n text = Ok (h', scs) ->
  exists h1 ls, tokenised ord h text h1 ls /\ length h1 = length h + length ls /\ length h' = length h + length ls /\ length ls <= length text.
Proof.
  intros ord h n text h' scs O W E. destruct (C29_tokeniser_terminates ord h text O W) as (h1 & ls & Tk & _).
  exists h1, ls. split; [done|]. split; [by eapply extract_count|]. split; [by eapply parse_count|].
  destruct (C28_tokeniser_lossless ord h text h1 ls O W Tk) as [Tx Ne]. rewrite <- Tx. clear -Ne.
  induction ls as [|l ls IH]; [cbn; lia|]. cbn [map concat length]. rewrite app_length.
  assert (text_of h1 (Some l) <> []) by (apply Ne; by left). destruct (text_of h1 (Some l)); [done|].
  cbn [length]. assert (length ls <= length (concat (map (fun l => text_of h1 (Some l)) ls))) by (apply IH; intros x Hx; apply Ne; by right). lia.
Qed.
Theorem C64_at_most_one_node_per_byte : forall ord h n text h' scs, any_order ord -> SpecNode.wf h -> parse_scope ord h n text = Ok (h', scs) ->
  length h <= length h' <= length h + length text.
Proof. intros ord h n text h' scs O W E. destruct (C64_nodes_per_token _ _ _ _ _ _ O W E) as (h1 & ls & _ & _ & -> & L). lia. Qed.
Example ex_C64 : match parse_scope src_ord [] 0 $"var x=1" with Ok (h, _) => length h = 3 | _ => False end.
Proof. vm_compute. reflexivity. Qed.
(** The bound is met: a text of separators. *)
Example ex_C64_bound : match parse_scope src_ord [] 0 $"(),;" with Ok (h, _) => length h = 4 | _ => False end.
Proof. vm_compute. reflexivity. Qed.
