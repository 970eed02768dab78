(** C77: what ast.go does with scopes of the user's own types. *)
From Verif Require Import SpecIface NodeFinal NodeIter NodeCopy P_Node P_Ast.

(** ** Following a chain *)
Lemma loop_walk {A} h (f : loc -> A -> A) : forall fuel p a r,
  loop fuel (fun _ l => next_of h (Some l)) (fun l a => Ok (f l a, true)) p a = Ok r ->
  exists ls, walk h p ls /\ r = (fold_left (fun a l => f l a) ls a, None).
Proof.
  induction fuel as [|fuel IH]; intros [l|] a r E; cbn [loop] in E; try discriminate.
  - injection E as <-. exists []. split; [constructor|done].
  - destruct (IH _ _ _ E) as (ls & Wk & ->). exists (l :: ls). split; [by constructor|done].
  - injection E as <-. exists []. split; [constructor|done].
Qed.
Lemma loop_walk' {A} h (f : loc -> A -> A) ls : forall fuel p a, walk h p ls -> length ls <= fuel ->
  loop fuel (fun _ l => next_of h (Some l)) (fun l a => Ok (f l a, true)) p a = Ok (fold_left (fun a l => f l a) ls a, None).
Proof.
  induction ls as [|l ls IH]; intros fuel p a Wk L; inversion Wk; subst.
  - destruct fuel; done.
  - destruct fuel as [|fuel]; [cbn [length] in L; lia|]. cbn [loop fold_left]. apply IH; [done|]. cbn [length] in L. lia.
Qed.
Lemma walk_nseg h ls : forall p, walk h p ls -> NodeChain.nseg h p ls None.
Proof. induction ls as [|l ls IH]; intros p Wk; inversion Wk; subst; [done|]. split; [done|auto]. Qed.
Lemma walk_short h p ls : walk h p ls -> length ls <= Datatypes.S (length h).
Proof.
  intros Wk. destruct (decide (ls = [])) as [->|N]; [cbn; lia|].
  destruct (exists_last N) as (xs & x & E). subst ls. rewrite app_length. cbn [length].
  assert (length xs <= length h); [|lia]. apply NodeChain.NoDup_bound.
  - pose proof (NodeChain.nseg_NoDup _ _ _ (walk_nseg _ _ _ Wk)) as D. by apply NoDup_app in D as [D _].
  - clear N. revert p Wk. induction xs as [|y xs IH]; intros p Wk z Hz; [by apply elem_of_nil in Hz|].
    cbn [app] in Wk. inversion Wk as [|? ? Wk']; subst. apply elem_of_cons in Hz as [->|Hz]; [|by eapply IH].
    destruct (decide (y < length h)) as [V|V]; [done|exfalso]. unfold next_of in Wk'. rewrite NodeCopy.field_out in Wk' by done.
    inversion Wk' as [E|]. by destruct xs.
Qed.
Lemma scan_walk {A} h (f : loc -> A -> A) p a :
  (exists ls, walk h p ls /\ scan_next h p (fun l a => (f l a, true)) a = Ok (fold_left (fun a l => f l a) ls a, None)) \/
  ((forall ls, ~ walk h p ls) /\ scan_next h p (fun l a => (f l a, true)) a = OutOfFuel).
Proof.
  unfold scan_next. destruct (loop _ _ _ p a) as [r| |] eqn:E.
  - left. destruct (loop_walk h f _ _ _ _ E) as (ls & Wk & ->). by exists ls.
  - exfalso. revert E. generalize (Datatypes.S (length h)) as fuel. intros fuel. revert p a.
    induction fuel as [|fuel IH]; intros [l|] a; cbn [loop]; try discriminate. apply IH.
  - right. split; [|done]. intros ls Wk. rewrite (loop_walk' h f ls) in E; [discriminate|done|by eapply walk_short].
Qed.
Lemma fold_app (F : loc -> str) ls : forall acc, fold_left (fun a l => a ++ F l) ls acc = acc ++ concat (map F ls).
Proof. induction ls as [|l ls IH]; intros acc; cbn [fold_left map concat]; [by rewrite app_nil_r|]. by rewrite IH, <- app_assoc. Qed.
Lemma scan_collects h (F : loc -> str) p acc :
  (exists ls, walk h p ls /\ scan_next h p (fun l a => (a ++ F l, true)) acc = Ok (acc ++ concat (map F ls), None)) \/
  ((forall ls, ~ walk h p ls) /\ scan_next h p (fun l a => (a ++ F l, true)) acc = OutOfFuel).
Proof.
  destruct (scan_walk h (fun l a => a ++ F l) p acc) as [(ls & Wk & E)|[N E]]; [left|right; done].
  exists ls. split; [done|]. by rewrite E, fold_app.
Qed.
Lemma walk_det h ls : forall ms p, walk h p ls -> walk h p ms -> ls = ms.
Proof. induction ls as [|l ls IH]; intros ms p Wl Wm; inversion Wl; subst; inversion Wm; subst; [done|]. f_equal. by eapply IH. Qed.

Lemma slot_element {U} (w : world U) s i : slot w s i = element w s i.
Proof.
  unfold slot, element. rewrite nth_lookup, lookup_drop. f_equal. f_equal. rewrite nth_lookup. done.
Qed.
Section Loop.
Context {U : Type} (um : methods U).
Notation world := (world U).
(** ** The range statement *)
Lemma range_loop_spec {A B} (s : slice) (body : option ival -> B -> comp U (B * bool))
    (one : option ival -> world -> A -> world -> Prop) (upd : B -> A -> B) (lg : option ival -> list event)
    (bad : option ival -> world -> list event -> ending -> Prop) :
  (forall v b w, (exists x w', one v w x w' /\ body v b w = (lg v, Done (upd b x, true) w')) \/
                 (exists l e o, bad v w l e /\ ended e o /\ body v b w = (l, o))) ->
  forall k i b w,
    (exists vs xs w', visits one s i w vs xs w' /\ length vs = k /\
       range_loop s body k i b w = (concat (map lg vs), Done (fold_left upd xs b) w')) \/
    (exists vs xs w1 l e o, visits one s i w vs xs w1 /\ length vs < k /\ bad (element w1 s (i + length vs)) w1 l e /\ ended e o /\
       range_loop s body k i b w = (concat (map lg vs) ++ l, o)).
Proof.
  intros Hb. induction k as [|k IH]; intros i b w; cbn [range_loop]; rewrite ?slot_element.
  - left. exists [], [], w. split; [constructor|done].
  - unfold cbind at 1 2. destruct (Hb (element w s i) b w) as [(x & w1 & O1 & E)|(l & e & o & Bd & En & E)].
    + rewrite E. destruct (IH (Datatypes.S i) (upd b x) w1) as [(vs & xs & w' & V & L & R)|(vs & xs & w2 & l & e & o & V & L & Bd & En & R)].
      * left. exists (element w s i :: vs), (x :: xs), w'. split; [by eapply vis_one|]. split; [cbn [length]; lia|]. rewrite R. done.
      * right. exists (element w s i :: vs), (x :: xs), w2, l, e, o. split; [by eapply vis_one|]. split; [cbn [length]; lia|].
        cbn [length]. rewrite <- Nat.add_succ_comm. split; [done|]. split; [done|]. rewrite R. cbn [map concat]. by rewrite <- app_assoc.
    + right. rewrite E. destruct e as [we|]; cbn [ended] in En; subst o.
      * exists [], [], w, l, (EPanic we), (Panicked we). split; [constructor|]. split; [cbn; lia|]. cbn [length]. rewrite Nat.add_0_r. done.
      * exists [], [], w, l, EHang, Hangs. split; [constructor|]. split; [cbn; lia|]. cbn [length]. rewrite Nat.add_0_r. done.
Qed.

Lemma call_node_cases v w :
  (exists p w', node_returns um v w p w' /\ call_node um v w = ([Call v MNode], Done p w')) \/
  (exists e o, stops (um_node um) v w e /\ ended e o /\ call_node um v w = ([Call v MNode], o)).
Proof.
  unfold call_node. destruct v as [[sc|o]|].
  - left. eexists _, _. split; [constructor|done].
  - destruct (um_node um o w) as [p w'|w'|] eqn:E.
    + left. eexists _, _. split; [by constructor|done].
    + right. exists (EPanic w'), (Panicked w'). split; [by constructor|done].
    + right. exists EHang, Hangs. split; [by constructor|done].
  - right. exists (EPanic w), (Panicked w). split; [by constructor|done].
Qed.
Lemma call_description_cases v w :
  (exists p w', description_returns um v w p w' /\ call_description um v w = ([Call v MDescription], Done p w')) \/
  (exists e o, stops (um_description um) v w e /\ ended e o /\ call_description um v w = ([Call v MDescription], o)).
Proof.
  unfold call_description. destruct v as [[sc|o]|].
  - left. eexists _, _. split; [constructor|done].
  - destruct (um_description um o w) as [p w'|w'|] eqn:E.
    + left. eexists _, _. split; [by constructor|done].
    + right. exists (EPanic w'), (Panicked w'). split; [by constructor|done].
    + right. exists EHang, Hangs. split; [by constructor|done].
  - right. exists (EPanic w), (Panicked w). split; [by constructor|done].
Qed.
Lemma call_kind_cases v w :
  (exists p w', kind_returns um v w p w' /\ call_kind um v w = ([Call v MKind], Done p w')) \/
  (exists e o, stops (um_kind um) v w e /\ ended e o /\ call_kind um v w = ([Call v MKind], o)).
Proof.
  unfold call_kind. destruct v as [[sc|o]|].
  - left. eexists _, _. split; [constructor|done].
  - destruct (um_kind um o w) as [p w'|w'|] eqn:E.
    + left. eexists _, _. split; [by constructor|done].
    + right. exists (EPanic w'), (Panicked w'). split; [by constructor|done].
    + right. exists EHang, Hangs. split; [by constructor|done].
  - right. exists (EPanic w), (Panicked w). split; [by constructor|done].
Qed.
Lemma call_copy_cases v w :
  (exists p w', copy_returns um v w p w' /\ call_copy um v w = ([Call v MCopy], Done p w')) \/
  (exists e o, no_copy um v w e /\ ended e o /\ call_copy um v w = ([Call v MCopy], o)).
Proof.
  unfold call_copy. destruct v as [[sc|o]|].
  - destruct (scope_copy (w_heap w) sc) as [[h sc']| |] eqn:E.
    + left. eexists _, _. split; [by constructor|done].
    + exfalso. unfold scope_copy in E. destruct (copy (w_heap w) (sc_node sc) true) as [[h n]| |] eqn:Ec; try discriminate E.
      unfold copy in Ec. destruct (sc_node sc); [|discriminate Ec]. by apply deep_copy_no_panic in Ec.
    + right. exists EHang, Hangs. split; [|done]. right. exists sc. split; [done|]. split; [|done]. intros. congruence.
  - destruct (um_copy um o w) as [p w'|w'|] eqn:E.
    + left. eexists _, _. split; [by constructor|done].
    + right. exists (EPanic w'), (Panicked w'). split; [left; by constructor|done].
    + right. exists EHang, Hangs. split; [left; by constructor|done].
  - right. exists (EPanic w), (Panicked w). split; [left; by constructor|done].
Qed.
End Loop.

Lemma get_bind {U B} f (k : ast -> comp U B) (w : world U) :
  cbind (get_ast f) k w = match w_asts w !! f with Some a => k a w | None => ([], Panicked w) end.
Proof. unfold cbind, get_ast. destruct (w_asts w !! f) as [a|]; [|done]. by destruct (k a w). Qed.
Definition save_body {U} (um : methods U) (v : option ival) (buf : str) : comp U (str * bool) :=
  cbind (call_node um v) (fun n => look (fun h =>
    res_bind (scan_next h n (fun l acc => (acc ++ text_of h (Some l), true)) buf) (fun r => Ok (fst r, true)))).

(** ** Save *)
(** Save asks each element of the list for its Node, once, in order, each as it is
    found when its turn comes; the text is that of the nodes that can be reached
    at that moment.  Only when all have answered is the file touched, as by the
    library's own scopes.  If an element is nil, panics, hangs or is on a circle,
    Save ends there, and no file has been touched. *)
Theorem C77_save : forall U (um : methods U) e f file autoImport (w : world U) a, w_asts w !! f = Some a ->
  (exists vs ts w1, visits (text_of_scope um) (a_scope a) 0 w vs ts w1 /\ length vs = sl_len (a_scope a) /\
     forall states fs' err, save_file e (w_fs w1) file (concat ts) autoImport = (states, fs', err) ->
     i_save um e f file autoImport w =
       (map (fun v => Call v MNode) vs ++ map FileState states,
        Done err (mkWorld (w_heap w1) (w_arr w1) (w_asts w1) fs' (w_user w1)))) \/
  (exists vs ts w1 v end_ out, visits (text_of_scope um) (a_scope a) 0 w vs ts w1 /\ length vs < sl_len (a_scope a) /\
     v = element w1 (a_scope a) (length vs) /\ no_text um v w1 end_ /\ ended end_ out /\
     i_save um e f file autoImport w = (map (fun v => Call v MNode) (vs ++ [v]), out)).
Proof.
  intros U um e f file ai w a Ha. unfold i_save, range. rewrite !get_bind, Ha. fold (save_body um).
  set (body := save_body um).
  destruct (range_loop_spec (a_scope a) body (text_of_scope um) (fun b t => b ++ t) (fun v => [Call v MNode])
    (fun v w l e => l = [Call v MNode] /\ no_text um v w e)) with (k := sl_len (a_scope a)) (i := 0) (b := [] : str) (w := w)
    as [(vs & ts & w1 & V & L & R)|(vs & ts & w1 & l & en & o & V & L & [-> Bd] & En & R)].
  - clear. intros v b w. unfold body, save_body, cbind. destruct (call_node_cases um v w) as [(p & w' & Nr & E)|(e & o & St & En & E)]; rewrite E.
    + unfold look. destruct (scan_collects (w_heap w') (fun l => text_of (w_heap w') (Some l)) p b) as [(ls & Wk & Es)|[N Es]]; rewrite Es; cbn [res_bind fst].
      * left. exists (text_at (w_heap w') ls), w'. split; [|done]. by exists p, ls.
      * right. exists [Call v MNode], EHang, Hangs. split; [|done]. split; [done|]. right. by exists p, w'.
    + right. destruct e as [we|]; cbn [ended] in En; subst o.
      * exists [Call v MNode], (EPanic we), (Panicked we). split; [|done]. split; [done|by left].
      * exists [Call v MNode], EHang, Hangs. split; [|done]. split; [done|by left].
  - left. exists vs, ts, w1. split; [done|]. split; [done|]. intros states fs' err Es. unfold cbind. rewrite R.
    unfold save_to. replace (fold_left (fun b t => b ++ t) ts []) with (concat ts).
    + rewrite Es. f_equal. cbn [app]. f_equal. clear. induction vs as [|v vs IH]; [done|]. cbn [map concat app]. by rewrite IH.
    + clear. symmetry. assert (G : forall acc, fold_left (fun b t : str => b ++ t) ts acc = acc ++ concat ts); [|apply G].
      induction ts as [|t ts IH]; intros acc; cbn [fold_left concat]; [by rewrite app_nil_r|]. by rewrite IH, <- app_assoc.
  - right. exists vs, ts, w1, (element w1 (a_scope a) (length vs)), en.
    assert (Ec : concat (map (fun v => [Call v MNode]) vs) ++ [Call (element w1 (a_scope a) (0 + length vs)) MNode] = map (fun v => Call v MNode) (vs ++ [element w1 (a_scope a) (length vs)])).
    { rewrite map_app. f_equal. clear. induction vs as [|v vs IH]; [done|]. cbn [map concat app]. by rewrite IH. }
    destruct en as [we|]; cbn [ended] in En; subst o.
    + exists (Panicked we). repeat (split; [done|]). unfold cbind. rewrite R. by rewrite Ec.
    + exists Hangs. repeat (split; [done|]). unfold cbind. rewrite R. by rewrite Ec.
Qed.

(** So, whatever the user's methods do: as long as Save has not come back, it has
    touched no file, and the only method it calls is Node. *)
Theorem C77_save_safe : forall U (um : methods U) e f file autoImport (w : world U) log out,
  i_save um e f file autoImport w = (log, out) ->
  (forall v m, Call v m ∈ log -> m = MNode) /\
  ((forall err w', out <> Done err w') -> forall st, FileState st ∉ log) /\
  (forall l1 st l2 v m, log = l1 ++ FileState st :: l2 -> Call v m ∉ l2).
Proof.
  intros U um e f file ai w log out E. destruct (w_asts w !! f) as [a|] eqn:Ha.
  - destruct (C77_save U um e f file ai w a Ha) as [(vs & ts & w1 & V & L & R)|(vs & ts & w1 & v0 & en & o & V & L & _ & Bd & En & R)].
    + destruct (save_file e (w_fs w1) file (concat ts) ai) as [[states fs'] err] eqn:Es. rewrite (R _ _ _ eq_refl) in E. injection E as <- <-.
      split; [|split].
      * intros v m [H|H]%elem_of_app; apply elem_of_list_fmap in H as (y & H & _); congruence.
      * intros N. by destruct (N err (mkWorld (w_heap w1) (w_arr w1) (w_asts w1) fs' (w_user w1))).
      * intros l1 st l2 v m El Hin.
        assert (G : forall (us : list (option ival)) (ss : list fs) l1, map (fun v => Call v MNode) us ++ map FileState ss = l1 ++ FileState st :: l2 -> Call v m ∉ l2); [|by eapply G].
        clear. induction us as [|u us IH]; intros ss l1 El.
        -- cbn [map app] in El. intros Hin. assert (H : Call v m ∈ map FileState ss) by (rewrite El; apply elem_of_app; right; by right).
           apply elem_of_list_fmap in H as (y & H & _). discriminate H.
        -- destruct l1 as [|x l1]; [discriminate El|]. injection El as _ El. by eapply IH.
    + rewrite R in E. injection E as <- <-. split; [|split].
      * intros v m H. apply elem_of_list_fmap in H as (y & H & _). congruence.
      * intros _ st H. apply elem_of_list_fmap in H as (y & H & _). discriminate H.
      * intros l1 st l2 v m El. assert (H : FileState st ∈ map (fun v : option ival => Call v MNode) (vs ++ [v0])) by (rewrite El; apply elem_of_app; right; by left).
        apply elem_of_list_fmap in H as (y & H & _). discriminate H.
  - unfold i_save, cbind, get_ast in E. rewrite Ha in E. injection E as <- <-. split; [|split].
    + intros v m H. by apply elem_of_nil in H.
    + intros _ st. apply not_elem_of_nil.
    + intros l1 st l2 v m El. by destruct l1.
Qed.

(** Nothing but the answers of Node matters for what Save does. *)
Theorem C77_save_only_node : forall U (um um' : methods U) e f file autoImport (w : world U),
  (forall o w, um_node um' o w = um_node um o w) ->
  i_save um' e f file autoImport w = i_save um e f file autoImport w.
Proof.
  intros U um um' e f file ai w Hn. unfold i_save, range. rewrite !get_bind. destruct (w_asts w !! f) as [a|]; [|done].
  fold (save_body um) (save_body um'). set (body := @save_body U).
  assert (B : forall v b w, body um' v b w = body um v b w).
  { intros v b w0. unfold body, save_body, cbind, call_node. destruct v as [[sc|o]|]; [done| |done]. by rewrite Hn. }
  assert (R : forall k i b w, range_loop (a_scope a) (body um') k i b w = range_loop (a_scope a) (body um) k i b w).
  { induction k as [|k IH]; intros i b w0; [done|]. cbn [range_loop]. unfold cbind. rewrite B. destruct (body um (slot w0 (a_scope a) i) b w0) as [lg [[b' [|]] w'|w'|]]; try done. by rewrite IH. }
  unfold cbind. fold (body um) (body um'). by rewrite R.
Qed.

(** ** Description *)
Definition desc_body {U} (um : methods U) (v : option ival) (buf : str) : comp U (str * bool) :=
  cbind (call_description um v) (fun d =>
  cbind (call_node um v) (fun n =>
  look (fun h =>
    res_bind (scan_next h n (fun l acc => (acc ++ description h (Some l), true)) (buf ++ d))
             (fun r => Ok (fst r, true))))).
Lemma fold_concat (ts : list str) : forall acc, fold_left (fun b t : str => b ++ t) ts acc = acc ++ concat ts.
Proof. induction ts as [|t ts IH]; intros acc; cbn [fold_left concat]; [by rewrite app_nil_r|]. by rewrite IH, <- app_assoc. Qed.
(** Description asks each element for its Description and then its Node. *)
Theorem C77_description : forall U (um : methods U) f (w : world U) a, w_asts w !! f = Some a ->
  let calls := fun v => [Call v MDescription; Call v MNode] in
  (exists vs ts w1, visits (description_of_scope um) (a_scope a) 0 w vs ts w1 /\ length vs = sl_len (a_scope a) /\
     i_description um f w = (concat (map calls vs), Done (concat ts) w1)) \/
  (exists vs ts w1 v end_ out, visits (description_of_scope um) (a_scope a) 0 w vs ts w1 /\ length vs < sl_len (a_scope a) /\
     v = element w1 (a_scope a) (length vs) /\ ended end_ out /\
     (stops (um_description um) v w1 end_ /\ i_description um f w = (concat (map calls vs) ++ [Call v MDescription], out) \/
      exists d w2, description_returns um v w1 d w2 /\ no_text um v w2 end_ /\ i_description um f w = (concat (map calls (vs ++ [v])), out))).
Proof.
  intros U um f w a Ha calls. unfold i_description, range. rewrite !get_bind, Ha. fold (desc_body um).
  destruct (range_loop_spec (a_scope a) (desc_body um) (description_of_scope um) (fun b t => b ++ t) calls
    (fun v w l e => l = [Call v MDescription] /\ stops (um_description um) v w e \/
       l = calls v /\ exists d w2, description_returns um v w d w2 /\ no_text um v w2 e)) with (k := sl_len (a_scope a)) (i := 0) (b := [] : str) (w := w)
    as [(vs & ts & w1 & V & L & R)|(vs & ts & w1 & l & en & o & V & L & Bd & En & R)].
  - clear. intros v b w. unfold desc_body, cbind. destruct (call_description_cases um v w) as [(d & w1 & Dr & E1)|(e & o & St & En & E1)]; rewrite E1.
    + destruct (call_node_cases um v w1) as [(p & w' & Nr & E)|(e & o & St & En & E)]; rewrite E.
      * unfold look. destruct (scan_collects (w_heap w') (fun l => description (w_heap w') (Some l)) p (b ++ d)) as [(ls & Wk & Es)|[N Es]]; rewrite Es; cbn [res_bind fst].
        -- left. eexists (d ++ _), w'. split; [|rewrite <- app_assoc; done]. by exists d, w1, p, ls.
        -- right. exists (calls v), EHang, Hangs. split; [|done]. right. split; [done|]. exists d, w1. split; [done|]. right. by exists p, w'.
      * right. destruct e as [we|]; cbn [ended] in En; subst o.
        -- exists (calls v), (EPanic we), (Panicked we). split; [|done]. right. split; [done|]. exists d, w1. split; [done|by left].
        -- exists (calls v), EHang, Hangs. split; [|done]. right. split; [done|]. exists d, w1. split; [done|by left].
    + right. destruct e as [we|]; cbn [ended] in En; subst o.
      * exists [Call v MDescription], (EPanic we), (Panicked we). split; [|done]. by left.
      * exists [Call v MDescription], EHang, Hangs. split; [|done]. by left.
  - left. exists vs, ts, w1. split; [done|]. split; [done|]. by rewrite R, fold_concat.
  - right. exists vs, ts, w1, (element w1 (a_scope a) (length vs)), en, o. split; [done|]. split; [done|]. split; [done|]. split; [done|]. cbn [Nat.add] in Bd.
    destruct Bd as [[-> St]|[-> (d & w2 & Dr & Nt)]].
    + left. split; [done|]. by rewrite R.
    + right. exists d, w2. split; [done|]. split; [done|]. rewrite R, map_app, concat_app. cbn [map concat]. by rewrite app_nil_r.
Qed.

(** ** Copy *)
Definition copy_body {U} (um : methods U) (v : option ival) (scs : list (option ival)) : comp U (list (option ival) * bool) :=
  cbind (call_copy um v) (fun v' => cret (scs ++ [v'], true)).
(** What a program can do to an ast that somebody else holds: AppendScope. *)
Definition asts_stay {U} (w w' : world U) : Prop :=
  forall f a, w_asts w !! f = Some a -> exists s, w_asts w' !! f = Some (ast_set_scope a s).
Lemma asts_stay_refl {U} (w : world U) : asts_stay w w.
Proof. intros f a E. exists (a_scope a). rewrite E. by destruct a. Qed.
Lemma asts_stay_trans {U} (w1 w2 w3 : world U) : asts_stay w1 w2 -> asts_stay w2 w3 -> asts_stay w1 w3.
Proof. intros A B f a E. destruct (A f a E) as [s E2]. destruct (B _ _ E2) as [s' E3]. exists s'. by rewrite E3. Qed.
(** Copy asks each element for its Copy; the new ast, made when all have answered,
    holds the answers in order, whatever they are, in a slice of its own. *)
Theorem C77_copy : forall U (um : methods U) f (w : world U) a, w_asts w !! f = Some a ->
  (forall o w v w', um_copy um o w = Done v w' -> asts_stay w w') ->
  (exists vs vs' w1 s', visits (copy_returns um) (a_scope a) 0 w vs vs' w1 /\ length vs = sl_len (a_scope a) /\
     s' = mkSlice (length (w_arr w1)) 0 (length vs') (length vs') /\
     i_copy um f w = (map (fun v => Call v MCopy) vs,
       Done (length (w_asts w1)) (mkWorld (w_heap w1) (w_arr w1 ++ [vs']) (w_asts w1 ++ [ast_set_scope a s']) (w_fs w1) (w_user w1)))) \/
  (exists vs vs' w1 v end_ out, visits (copy_returns um) (a_scope a) 0 w vs vs' w1 /\ length vs < sl_len (a_scope a) /\
     v = element w1 (a_scope a) (length vs) /\ no_copy um v w1 end_ /\ ended end_ out /\
     i_copy um f w = (map (fun v => Call v MCopy) (vs ++ [v]), out)).
Proof.
  intros U um f w a Ha Stay. unfold i_copy, range. rewrite !get_bind, Ha. fold (copy_body um).
  destruct (range_loop_spec (a_scope a) (copy_body um) (copy_returns um) (fun b v => b ++ [v]) (fun v => [Call v MCopy])
    (fun v w l e => l = [Call v MCopy] /\ no_copy um v w e)) with (k := sl_len (a_scope a)) (i := 0) (b := [] : list (option ival)) (w := w)
    as [(vs & ts & w1 & V & L & R)|(vs & ts & w1 & l & en & o & V & L & [-> Bd] & En & R)].
  - clear. intros v b w. unfold copy_body, cbind. destruct (call_copy_cases um v w) as [(p & w' & Nr & E)|(e & o & St & En & E)]; rewrite E.
    + left. exists p, w'. split; done.
    + right. destruct e as [we|]; cbn [ended] in En; subst o.
      * by exists [Call v MCopy], (EPanic we), (Panicked we).
      * by exists [Call v MCopy], EHang, Hangs.
  - left. assert (As : asts_stay w w1).
    { clear R L. revert V. generalize 0 as i. intros i V. clear Ha. induction V as [|i w x w1 vs xs w2 O1 V IH]; [apply asts_stay_refl|].
      eapply asts_stay_trans; [|exact IH]. inversion O1 as [sc w0 h sc' Ec|o w0 v w0' Eu]; subst; [|by eapply Stay].
      intros g b Eg. exists (a_scope b). cbn [w_asts]. rewrite Eg. by destruct b. }
    destruct (As f a Ha) as [sl Ef]. exists vs, ts, w1, (mkSlice (length (w_arr w1)) 0 (length ts) (length ts)). split; [done|]. split; [done|]. split; [done|].
    assert (Et : fold_left (fun b v => b ++ [v]) ts [] = ts).
    { clear. assert (G : forall acc, fold_left (fun b (v : option ival) => b ++ [v]) ts acc = acc ++ ts); [|apply G].
      induction ts as [|t ts IH]; intros acc; cbn [fold_left]; [by rewrite app_nil_r|]. by rewrite IH, <- app_assoc. }
    rewrite Et in R. unfold cbind. rewrite R. unfold alloc_slice, get_ast. cbn [w_asts]. rewrite Ef. unfold alloc_ast. cbn [w_asts w_heap w_arr w_fs w_user a_file a_dir a_name a_ext ast_set_scope].
    assert (Ec : concat (map (fun v => [Call v MCopy]) vs) = map (fun v => Call v MCopy) vs) by (clear; induction vs as [|v vs IH]; [done|]; cbn [map concat app]; by rewrite IH).
    rewrite Ec, !app_nil_r. reflexivity.
  - right. exists vs, ts, w1, (element w1 (a_scope a) (length vs)), en.
    assert (Ec : concat (map (fun v => [Call v MCopy]) vs) ++ [Call (element w1 (a_scope a) (0 + length vs)) MCopy] = map (fun v => Call v MCopy) (vs ++ [element w1 (a_scope a) (length vs)])).
    { rewrite map_app. f_equal. clear. induction vs as [|v vs IH]; [done|]. cbn [map concat app]. by rewrite IH. }
    destruct en as [we|]; cbn [ended] in En; subst o.
    + exists (Panicked we). repeat (split; [done|]). unfold cbind. rewrite R. by rewrite Ec.
    + exists Hangs. repeat (split; [done|]). unfold cbind. rewrite R. by rewrite Ec.
Qed.

(** ** Loops that may be left early *)
Lemma range_loop_break {U A B} (s : slice) (body : option ival -> B -> comp U (B * bool))
    (one : option ival -> world U -> A -> world U -> Prop) (lg : option ival -> list event)
    (brk : option ival -> world U -> B -> world U -> Prop)
    (bad : option ival -> world U -> ending -> Prop) (b : B) :
  (forall v w, (exists x w', one v w x w' /\ body v b w = (lg v, Done (b, true) w')) \/
               (exists b' w', brk v w b' w' /\ body v b w = (lg v, Done (b', false) w')) \/
               (exists e o, bad v w e /\ ended e o /\ body v b w = (lg v, o))) ->
  forall k i w,
    (exists vs xs w', visits one s i w vs xs w' /\ length vs = k /\
       range_loop s body k i b w = (concat (map lg vs), Done b w')) \/
    (exists vs xs w1 b' w2, visits one s i w vs xs w1 /\ length vs < k /\ brk (element w1 s (i + length vs)) w1 b' w2 /\
       range_loop s body k i b w = (concat (map lg (vs ++ [element w1 s (i + length vs)])), Done b' w2)) \/
    (exists vs xs w1 e o, visits one s i w vs xs w1 /\ length vs < k /\ bad (element w1 s (i + length vs)) w1 e /\ ended e o /\
       range_loop s body k i b w = (concat (map lg (vs ++ [element w1 s (i + length vs)])), o)).
Proof.
  intros Hb. induction k as [|k IH]; intros i w; cbn [range_loop]; rewrite ?slot_element.
  - left. exists [], [], w. split; [constructor|done].
  - unfold cbind at 1 2 3. destruct (Hb (element w s i) w) as [(x & w1 & O1 & E)|[(b' & w1 & O1 & E)|(e & o & Bd & En & E)]].
    + rewrite E. destruct (IH (Datatypes.S i) w1) as [(vs & xs & w' & V & L & R)|[(vs & xs & w2 & b' & w3 & V & L & Bk & R)|(vs & xs & w2 & e & o & V & L & Bd & En & R)]].
      * left. exists (element w s i :: vs), (x :: xs), w'. split; [by eapply vis_one|]. split; [cbn [length]; lia|]. by rewrite R.
      * right. left. exists (element w s i :: vs), (x :: xs), w2, b', w3. split; [by eapply vis_one|]. split; [cbn [length]; lia|].
        cbn [length]. rewrite <- Nat.add_succ_comm. split; [done|]. by rewrite R.
      * right. right. exists (element w s i :: vs), (x :: xs), w2, e, o. split; [by eapply vis_one|]. split; [cbn [length]; lia|].
        cbn [length]. rewrite <- Nat.add_succ_comm. split; [done|]. split; [done|]. by rewrite R.
    + right. left. rewrite E. exists [], [], w, b', w1. split; [constructor|]. split; [cbn; lia|]. cbn [length]. rewrite Nat.add_0_r. split; [done|]. done.
    + right. right. rewrite E. destruct e as [we|]; cbn [ended] in En; subst o.
      * exists [], [], w, (EPanic we), (Panicked we). split; [constructor|]. split; [cbn; lia|]. cbn [length app map concat]. rewrite Nat.add_0_r, app_nil_r. done.
      * exists [], [], w, EHang, Hangs. split; [constructor|]. split; [cbn; lia|]. cbn [length app map concat]. rewrite Nat.add_0_r, app_nil_r. done.
Qed.

(** ** IterScope *)
(** IterScope calls no method of the scopes.  The callback gets the elements as
    they are when their turn comes, as many as there were at the call (not those
    it appends), until it says no, panics or hangs. *)
Theorem C77_iter_scope : forall U f (fn : option ival -> world U -> outcome U bool) (w : world U) a, w_asts w !! f = Some a ->
  exists vs us w1, visits (fun v w (_ : unit) w' => fn v w = Done true w') (a_scope a) 0 w vs us w1 /\
    (length vs = sl_len (a_scope a) /\ i_iter_scope f fn w = ([], Done tt w1) \/
     length vs < sl_len (a_scope a) /\
       i_iter_scope f fn w = ([], match fn (element w1 (a_scope a) (length vs)) w1 with
                                  | Done _ w2 => Done tt w2 | Panicked w2 => Panicked w2 | Hangs => Hangs end) /\
       forall w2, fn (element w1 (a_scope a) (length vs)) w1 <> Done true w2).
Proof.
  intros U f fn w a Ha. unfold i_iter_scope, range. rewrite !get_bind, Ha. set (body := fun v (_ : unit) w => _).
  assert (Cn : forall vs : list (option ival), concat (map (fun _ => [] : list event) vs) = []) by (induction vs; done).
  destruct (range_loop_break (a_scope a) body (fun v w (_ : unit) w' => fn v w = Done true w') (fun _ => [])
    (fun v w _ w' => fn v w = Done false w') (fun v w e => match e with EPanic w' => fn v w = Panicked w' | EHang => fn v w = Hangs end) tt)
    with (k := sl_len (a_scope a)) (i := 0) (w := w)
    as [(vs & us & w' & V & L & R)|[(vs & us & w1 & b' & w2 & V & L & Bk & R)|(vs & us & w1 & e & o & V & L & Bd & En & R)]].
  - clear. intros v w. unfold body. destruct (fn v w) as [[|] w'|w'|] eqn:E.
    + left. by exists tt, w'.
    + right. left. by exists tt, w'.
    + right. right. by exists (EPanic w'), (Panicked w').
    + right. right. by exists EHang, Hangs.
  - exists vs, us, w'. split; [done|]. left. split; [done|]. by rewrite R, Cn.
  - exists vs, us, w1. split; [done|]. right. split; [done|]. cbn [Nat.add] in *. rewrite R, Cn, Bk. destruct b'. split; [done|]. by intros ? [=].
  - exists vs, us, w1. split; [done|]. right. split; [done|]. cbn [Nat.add] in *. rewrite R, Cn. destruct e as [we|]; cbn [ended] in En; subst o; rewrite Bd; (split; [done|]); by intros ? [=].
Qed.

(** ** Package and NewAst *)
Definition kind_body {U} (um : methods U) (v : option ival) (found : option ival) : comp U (option ival * bool) :=
  cbind (call_kind um v) (fun k => cret (if str_eqb k SPackage then (v, false) else (found, true))).
(** Package asks the elements for their Kind, up to the first whose answer is the
    package kind, and that one for its Node; the name is the one a scope of the
    library's with that node has (C45, C73). *)
Theorem C77_package : forall U (um : methods U) f (w : world U) a log out, w_asts w !! f = Some a ->
  i_package um f w = (log, out) ->
  exists vs ks w1, visits (fun v w k w' => kind_returns um v w k w' /\ k <> SPackage) (a_scope a) 0 w vs ks w1 /\
    let v := element w1 (a_scope a) (length vs) in
    (length vs = sl_len (a_scope a) /\ log = map (fun v => Call v MKind) vs /\ out = Done (inr ErrNoPackage) w1 \/
     length vs < sl_len (a_scope a) /\
     ((exists e, stops (um_kind um) v w1 e /\ ended e out /\ log = map (fun v => Call v MKind) (vs ++ [v])) \/
      exists w2, kind_returns um v w1 SPackage w2 /\ log = map (fun v => Call v MKind) (vs ++ [v]) ++ [Call v MNode] /\
        ((exists e, stops (um_node um) v w2 e /\ ended e out) \/
         exists p w3, node_returns um v w2 p w3 /\
           match find_package_name (w_heap w3) [Some (mkScope 0 SPackage p)] with
           | Ok r => out = Done r w3 | Panic => out = Panicked w3 | OutOfFuel => out = Hangs end))).
Proof.
  intros U um f w a log out Ha E. unfold i_package in E. rewrite get_bind, Ha in E. unfold i_find_package, range in E. fold (kind_body um) in E.
  assert (Cm : forall vs : list (option ival), concat (map (fun v => [Call v MKind]) vs) = map (fun v => Call v MKind) vs) by (induction vs as [|v vs IH]; [done|]; cbn [map concat app]; by rewrite IH).
  unfold cbind at 1 in E.
  destruct (range_loop_break (a_scope a) (kind_body um) (fun v w k w' => kind_returns um v w k w' /\ k <> SPackage) (fun v => [Call v MKind])
    (fun v w b w' => b = v /\ kind_returns um v w SPackage w') (fun v w e => stops (um_kind um) v w e) (None : option ival))
    with (k := sl_len (a_scope a)) (i := 0) (w := w)
    as [(vs & us & w' & V & L & R)|[(vs & us & w1 & b' & w2 & V & L & [-> Bk] & R)|(vs & us & w1 & e & o & V & L & Bd & En & R)]].
  - clear. intros v w. unfold kind_body, cbind. destruct (call_kind_cases um v w) as [(k & w' & Kr & E)|(e & o & St & En & E)]; rewrite E.
    + unfold cret. destruct (str_eqb k SPackage) eqn:Ek; cbn [app].
      * apply bool_decide_eq_true in Ek. subst k. right. left. by exists v, w'.
      * apply bool_decide_eq_false in Ek. left. by exists k, w'.
    + right. right. destruct e as [we|]; cbn [ended] in En; subst o; [by exists (EPanic we), (Panicked we)|by exists EHang, Hangs].
  - exists vs, us, w'. split; [done|]. left. rewrite R in E. unfold cret in E. rewrite app_nil_r, Cm in E. injection E as <- <-. done.
  - exists vs, us, w1. split; [done|]. right. split; [done|]. right. cbn [Nat.add] in *. exists w2. split; [done|]. rewrite R in E.
    assert (exists v0, element w1 (a_scope a) (length vs) = Some v0) as [v0 Ev0] by (inversion Bk; eauto). rewrite Ev0 in *. rewrite Cm in E. unfold cbind in E.
    destruct (call_node_cases um (Some v0) w2) as [(p & w3 & Nr & E2)|(e & o & St & En & E2)]; rewrite E2 in E.
    + unfold look in E. assert (F : find_package_name (w_heap w3) [Some (mkScope 0 SPackage p)] = res_bind (scan_next (w_heap w3) p (package_step (w_heap w3)) false) (fun r => Ok (inl (text_of (w_heap w3) (snd r))))) by reflexivity.
      destruct (res_bind (scan_next (w_heap w3) p (package_step (w_heap w3)) false) (fun r => Ok (inl (text_of (w_heap w3) (snd r)))) : res (str + error)) as [r| |] eqn:Es;
        (injection E as <- <-; rewrite ?app_nil_r; split; [done|]; right; exists p, w3; split; [done|]; by rewrite F).
    + destruct e as [we|]; cbn [ended] in En; subst o; (injection E as <- <-; split; [done|]; left); [by exists (EPanic we)|by exists EHang].
  - exists vs, us, w1. split; [done|]. right. split; [done|]. left. cbn [Nat.add] in *. exists e. split; [done|]. rewrite R in E.
    destruct e as [we|]; cbn [ended] in En; subst o; rewrite Cm in E; injection E as <- <-; done.
Qed.
(** NewAst asks the same questions in the same order as Package does of an ast with
    that slice, and ends the same way; if a package scope was found, the result is
    a new ast with the given slice itself. *)
Theorem C77_new_ast : forall U (um : methods U) (w : world U) f a log out, w_asts w !! f = Some a ->
  i_package um f w = (log, out) ->
  i_new_ast um (a_scope a) w = (log,
    match out with
    | Done (inl _) w1 => Done (inl (length (w_asts w1)))
        (mkWorld (w_heap w1) (w_arr w1) (w_asts w1 ++ [mkAst [] [] [] [] (a_scope a)]) (w_fs w1) (w_user w1))
    | Done (inr e) w1 => Done (inr e) w1
    | Panicked w1 => Panicked w1
    | Hangs => Hangs
    end).
Proof.
  intros U um w f a log out Ha E. unfold i_package in E. rewrite get_bind, Ha in E. unfold i_new_ast, cbind at 1. rewrite E.
  destruct out as [[n|e] w1|w1|]; try done; unfold cbind, alloc_ast, cret; cbn [app]; rewrite app_nil_r; reflexivity.
Qed.

(** ** Values that answer like the library's scopes *)
Lemma range_loop_S {U B} s (body : option ival -> B -> comp U (B * bool)) k i b (w : world U) :
  range_loop s body (Datatypes.S k) i b w =
  match body (element w s i) b w with
  | (l, Done (b', on) w') => let '(l', o) := (if on then range_loop s body k (Datatypes.S i) b' else cret b') w' in (l ++ l', o)
  | (l, Panicked w') => (l, Panicked w')
  | (l, Hangs) => (l, Hangs)
  end.
Proof. cbn [range_loop]. rewrite slot_element. unfold cbind. by destruct (body (element w s i) b w) as [l [[b' [|]] w'|w'|]]. Qed.
Section Like.
Context {U : Type} (um : methods U).
Notation world := (world U).
Lemma quiet_refl (w : world) : quiet w w. Proof. done. Qed.
Lemma quiet_trans (w1 w2 w3 : world) : quiet w1 w2 -> quiet w2 w3 -> quiet w1 w3.
Proof. intros (A & B & C & D) (E & F & G & H). repeat split; congruence. Qed.
Lemma quiet_slot (w w' : world) s i : quiet w w' -> element w' s i = element w s i.
Proof. intros (_ & E & _). unfold element. by rewrite E. Qed.
Lemma slots_from (w : world) s k i : map (element w s) (seq i (Datatypes.S k)) = element w s i :: map (element w s) (seq (Datatypes.S i) k).
Proof. done. Qed.
Lemma quiet_slots (w w' : world) s i k : quiet w w' -> map (element w' s) (seq i k) = map (element w s) (seq i k).
Proof. intros Q. apply map_ext. intros j. by apply quiet_slot. Qed.

Lemma like_node_call v o (w : world) : like_node um v o ->
  match o with
  | None => call_node um v w = ([Call v MNode], Panicked w)
  | Some sc => exists w', quiet w w' /\ call_node um v w = ([Call v MNode], Done (sc_node sc) w')
  end.
Proof.
  unfold like_node, call_node. destruct v as [[sc'|n]|], o as [sc|]; try done.
  - intros <-. exists w. by split; [apply quiet_refl|].
  - intros H. destruct (H w) as (w' & E & Q). exists w'. by rewrite E.
Qed.
Lemma like_description_call v o (w : world) : like_description um v o ->
  match o with
  | None => call_description um v w = ([Call v MDescription], Panicked w)
  | Some sc => exists w', quiet w w' /\ call_description um v w = ([Call v MDescription], Done (scope_description (Some sc)) w')
  end.
Proof.
  unfold like_description, call_description. destruct v as [[sc'|n]|], o as [sc|]; try done.
  - intros <-. exists w. by split; [apply quiet_refl|].
  - intros H. destruct (H w) as (w' & E & Q). exists w'. by rewrite E.
Qed.
Lemma like_kind_call v o (w : world) : like_kind um v o ->
  match o with
  | None => call_kind um v w = ([Call v MKind], Panicked w)
  | Some sc => exists w', quiet w w' /\ call_kind um v w = ([Call v MKind], Done (sc_kind sc) w')
  end.
Proof.
  unfold like_kind, call_kind. destruct v as [[sc'|n]|], o as [sc|]; try done.
  - intros <-. exists w. by split; [apply quiet_refl|].
  - intros H. destruct (H w) as (w' & E & Q). exists w'. by rewrite E.
Qed.

Lemma chain_text_acc h p acc :
  res_bind (scan_next h p (fun l a => (a ++ text_of h (Some l), true)) acc) (fun r => Ok (fst r, true)) =
  res_bind (chain_text h p) (fun t => Ok (acc ++ t, true)).
Proof.
  unfold chain_text. destruct (scan_collects h (fun l => text_of h (Some l)) p acc) as [(ls & Wk & E)|[N E]]; rewrite E;
    destruct (scan_collects h (fun l => text_of h (Some l)) p []) as [(ls' & Wk' & E')|[N' E']]; rewrite E'; cbn [res_bind fst app]; try done.
  - by rewrite (walk_det _ _ _ _ Wk Wk').
  - by destruct (N' ls).
  - by destruct (N ls').
Qed.
Lemma desc_acc h p acc :
  res_bind (scan_next h p (fun l a => (a ++ description h (Some l), true)) acc) (fun r => Ok (fst r, true)) =
  res_bind (scan_next h p (fun l a => (a ++ description h (Some l), true)) []) (fun r => Ok (acc ++ fst r, true)).
Proof.
  destruct (scan_collects h (fun l => description h (Some l)) p acc) as [(ls & Wk & E)|[N E]]; rewrite E;
    destruct (scan_collects h (fun l => description h (Some l)) p []) as [(ls' & Wk' & E')|[N' E']]; rewrite E'; cbn [res_bind fst app]; try done.
  - by rewrite (walk_det _ _ _ _ Wk Wk').
  - by destruct (N' ls).
  - by destruct (N ls').
Qed.

Lemma save_loop_like s scs : forall k i acc (w : world), Forall2 (like_node um) (map (element w s) (seq i k)) scs ->
  match save_text (w_heap w) scs with
  | Ok t => exists w1, quiet w w1 /\ range_loop s (save_body um) k i acc w = (map (fun v => Call v MNode) (map (element w s) (seq i k)), Done (acc ++ t) w1)
  | Panic => exists log w1, quiet w w1 /\ range_loop s (save_body um) k i acc w = (log, Panicked w1)
  | OutOfFuel => exists log, range_loop s (save_body um) k i acc w = (log, Hangs)
  end.
Proof.
  induction scs as [|o scs IH]; intros k i acc w F.
  - apply Forall2_nil_inv_r in F. destruct k; [|discriminate F]. cbn. exists w. rewrite app_nil_r. by split; [apply quiet_refl|].
  - destruct k as [|k]; [by apply Forall2_nil_cons_inv in F|]. rewrite slots_from in F. apply Forall2_cons in F as [Lv F].
    rewrite !range_loop_S. cbn [save_text]. set (body := save_body um) in *. unfold body at 1 3 5. unfold save_body, cbind.
    pose proof (like_node_call _ _ w Lv) as Cl. destruct o as [sc|].
    + destruct Cl as (w1 & Q & Cl). rewrite Cl. unfold look. rewrite chain_text_acc. pose proof Q as (Eh & _). rewrite Eh.
      destruct (chain_text (w_heap w) (sc_node sc)) as [t| |]; cbn [res_bind].
      * assert (F1 : Forall2 (like_node um) (map (element w1 s) (seq (Datatypes.S i) k)) scs) by (rewrite (quiet_slots w w1) by done; exact F).
        pose proof (IH k (Datatypes.S i) (acc ++ t) w1 F1) as IH1. rewrite Eh in IH1.
        destruct (save_text (w_heap w) scs) as [t'| |]; cbn [res_bind].
        -- destruct IH1 as (w2 & Q2 & E). exists w2. split; [by eapply quiet_trans|]. rewrite E, (quiet_slots w w1) by done. rewrite slots_from. cbn [map app]. by rewrite app_assoc.
        -- destruct IH1 as (log & w2 & Q2 & E). eexists _, w2. split; [by eapply quiet_trans|]. by rewrite E.
        -- destruct IH1 as (log & E). eexists. by rewrite E.
      * eexists _, w1. split; [done|]. done.
      * by eexists.
    + rewrite Cl. eexists _, w. split; [apply quiet_refl|]. done.
Qed.
Lemma desc_loop_like s scs : forall k i acc (w : world), Forall2 (like_node um) (map (element w s) (seq i k)) scs -> Forall2 (like_description um) (map (element w s) (seq i k)) scs ->
  match ast_description (w_heap w) scs with
  | Ok t => exists w1, quiet w w1 /\ range_loop s (desc_body um) k i acc w = (concat (map (fun v => [Call v MDescription; Call v MNode]) (map (element w s) (seq i k))), Done (acc ++ t) w1)
  | Panic => exists log w1, quiet w w1 /\ range_loop s (desc_body um) k i acc w = (log, Panicked w1)
  | OutOfFuel => exists log, range_loop s (desc_body um) k i acc w = (log, Hangs)
  end.
Proof.
  induction scs as [|o scs IH]; intros k i acc w F G.
  - apply Forall2_nil_inv_r in F. destruct k; [|discriminate F]. cbn. exists w. rewrite app_nil_r. by split; [apply quiet_refl|].
  - destruct k as [|k]; [by apply Forall2_nil_cons_inv in F|]. rewrite slots_from in F, G. apply Forall2_cons in F as [Lv F]. apply Forall2_cons in G as [Ld G].
    rewrite !range_loop_S. cbn [ast_description]. set (body := desc_body um) in *. unfold body at 1 3 5. unfold desc_body, cbind.
    pose proof (like_description_call _ _ w Ld) as Cd. destruct o as [sc|].
    + destruct Cd as (w0 & Q0 & Cd). rewrite Cd. pose proof (like_node_call _ _ w0 Lv) as Cl. destruct Cl as (w1 & Q1 & Cl). rewrite Cl.
      assert (Q : quiet w w1) by (by eapply quiet_trans). unfold look. rewrite desc_acc. pose proof Q as (Eh & _). rewrite Eh.
      destruct (scan_next (w_heap w) (sc_node sc) (fun l a => (a ++ description (w_heap w) (Some l), true)) []) as [t| |]; cbn [res_bind].
      * assert (F1 : Forall2 (like_node um) (map (element w1 s) (seq (Datatypes.S i) k)) scs) by (rewrite (quiet_slots w w1) by done; exact F).
        assert (G1 : Forall2 (like_description um) (map (element w1 s) (seq (Datatypes.S i) k)) scs) by (rewrite (quiet_slots w w1) by done; exact G).
        pose proof (IH k (Datatypes.S i) ((acc ++ scope_description (Some sc)) ++ fst t) w1 F1 G1) as IH1. rewrite Eh in IH1.
        destruct (ast_description (w_heap w) scs) as [t'| |]; cbn [res_bind].
        -- destruct IH1 as (w2 & Q2 & E). exists w2. split; [by eapply quiet_trans|]. rewrite E, (quiet_slots w w1) by done. rewrite slots_from. cbn [map app concat].
           f_equal. f_equal. repeat (rewrite <- ?app_assoc; cbn [app]). reflexivity.
        -- destruct IH1 as (log & w2 & Q2 & E). eexists _, w2. split; [by eapply quiet_trans|]. by rewrite E.
        -- destruct IH1 as (log & E). eexists. by rewrite E.
      * eexists _, w1. split; [done|]. done.
      * by eexists.
    + rewrite Cd. eexists _, w. split; [apply quiet_refl|]. done.
Qed.
End Like.

(** If the Node methods answer like the library's scopes [scs] (wrappers, say), Save
    does what it does with these scopes. *)
Theorem C77_save_like : forall U (um : methods U) e f file autoImport (w : world U) a m scs,
  w_asts w !! f = Some a -> Forall2 (like_node um) (slots w (a_scope a)) scs -> elems m (a_scope a) = scs ->
  match ast_save e (w_fs w) (w_heap w) m a file autoImport with
  | Ok (states, fs', err) => exists w1, quiet w w1 /\
      i_save um e f file autoImport w =
        (map (fun v => Call v MNode) (slots w (a_scope a)) ++ map FileState states,
         Done err (mkWorld (w_heap w1) (w_arr w1) (w_asts w1) fs' (w_user w1)))
  | Panic => exists log w1, quiet w w1 /\ i_save um e f file autoImport w = (log, Panicked w1)
  | OutOfFuel => exists log, i_save um e f file autoImport w = (log, Hangs)
  end.
Proof.
  intros U um e f file ai w a m scs Ha F Em. unfold ast_save. rewrite Em. unfold i_save, range. rewrite !get_bind, Ha. fold (save_body um).
  pose proof (save_loop_like um (a_scope a) scs _ 0 [] w F) as H. destruct (save_text (w_heap w) scs) as [t| |]; cbn [res_bind].
  - destruct H as (w1 & Q & E). destruct (save_file e (w_fs w) file t ai) as [[states fs'] err] eqn:Es. exists w1. split; [done|].
    unfold cbind. rewrite E. unfold save_to. pose proof Q as (_ & _ & _ & Ef). rewrite Ef. cbn [app]. rewrite Es. reflexivity.
  - destruct H as (log & w1 & Q & E). exists log, w1. split; [done|]. unfold cbind. by rewrite E.
  - destruct H as (log & E). exists log. unfold cbind. by rewrite E.
Qed.
Theorem C77_description_like : forall U (um : methods U) f (w : world U) a scs,
  w_asts w !! f = Some a -> Forall2 (like_node um) (slots w (a_scope a)) scs -> Forall2 (like_description um) (slots w (a_scope a)) scs ->
  match ast_description (w_heap w) scs with
  | Ok t => exists log w1, quiet w w1 /\ i_description um f w = (log, Done t w1)
  | Panic => exists log w1, quiet w w1 /\ i_description um f w = (log, Panicked w1)
  | OutOfFuel => exists log, i_description um f w = (log, Hangs)
  end.
Proof.
  intros U um f w a scs Ha F G. unfold i_description, range. rewrite !get_bind, Ha. fold (desc_body um).
  pose proof (desc_loop_like um (a_scope a) scs _ 0 [] w F G) as H. destruct (ast_description (w_heap w) scs) as [t| |].
  - destruct H as (w1 & Q & E). eexists _, w1. split; [done|]. by rewrite E.
  - exact H.
  - exact H.
Qed.
(** The same for Package. *)
Theorem C77_package_like : forall U (um : methods U) f (w : world U) a scs,
  w_asts w !! f = Some a -> Forall2 (like_kind um) (slots w (a_scope a)) scs -> Forall2 (like_node um) (slots w (a_scope a)) scs ->
  match find_package_name (w_heap w) scs with
  | Ok r => exists log w1, quiet w w1 /\ i_package um f w = (log, Done r w1)
  | Panic => exists log w1, quiet w w1 /\ i_package um f w = (log, Panicked w1)
  | OutOfFuel => exists log, i_package um f w = (log, Hangs)
  end.
Proof.
  intros U um f w a scs Ha F G. unfold i_package. rewrite !get_bind, Ha. unfold i_find_package, range. fold (kind_body um).
  set (s := a_scope a) in *. unfold slots in *.
  assert (H : forall k i (w : world U), Forall2 (like_kind um) (map (element w s) (seq i k)) scs -> Forall2 (like_node um) (map (element w s) (seq i k)) scs ->
    match find_package_scope scs with
    | Ok None => exists log w1, quiet w w1 /\ range_loop s (kind_body um) k i None w = (log, Done None w1)
    | Ok (Some sc) => exists log w1 v, quiet w w1 /\ like_node um (Some v) (Some sc) /\ range_loop s (kind_body um) k i None w = (log, Done (Some v) w1)
    | Panic => exists log w1, quiet w w1 /\ range_loop s (kind_body um) k i None w = (log, Panicked w1)
    | OutOfFuel => False end).
  { clear. induction scs as [|o scs IH]; intros k i w F G.
    - apply Forall2_nil_inv_r in F. destruct k; [|discriminate F]. cbn. by exists [], w.
    - destruct k as [|k]; [by apply Forall2_nil_cons_inv in F|]. rewrite slots_from in F, G. apply Forall2_cons in F as [Lv F]. apply Forall2_cons in G as [Ln G].
      rewrite !range_loop_S. cbn [find_package_scope]. set (body := kind_body um) in *. unfold body at 1 3 5. unfold kind_body, cbind.
      pose proof (like_kind_call um _ _ w Lv) as Cl. destruct o as [sc|].
      + destruct Cl as (w1 & Q & Cl). rewrite Cl. unfold cret at 1 3 5. destruct (str_eqb (sc_kind sc) SPackage).
        * destruct (element w s i) as [v|] eqn:Ev; [|done]. eexists _, w1, v. split; [done|]. split; [done|]. done.
        * cbn [app]. assert (F1 : Forall2 (like_kind um) (map (element w1 s) (seq (Datatypes.S i) k)) scs) by (rewrite (quiet_slots w w1) by done; exact F).
          assert (G1 : Forall2 (like_node um) (map (element w1 s) (seq (Datatypes.S i) k)) scs) by (rewrite (quiet_slots w w1) by done; exact G).
          pose proof (IH k (Datatypes.S i) w1 F1 G1) as IH1. destruct (find_package_scope scs) as [[sc'|]| |]; [| | |done].
          -- destruct IH1 as (log & w2 & v & Q2 & L2 & E). eexists _, w2, v. split; [by eapply quiet_trans|]. split; [done|]. by rewrite E.
          -- destruct IH1 as (log & w2 & Q2 & E). eexists _, w2. split; [by eapply quiet_trans|]. by rewrite E.
          -- destruct IH1 as (log & w2 & Q2 & E). eexists _, w2. split; [by eapply quiet_trans|]. by rewrite E.
      + rewrite Cl. eexists _, w. split; [apply quiet_refl|]. done. }
  specialize (H (sl_len s) 0 w F G). unfold find_package_name. destruct (find_package_scope scs) as [[sc|]| |]; cbn [res_bind]; [| | |done].
  - destruct H as (log & w1 & v & Q & L & E).
    destruct (like_node_call um _ _ w1 L) as (w2 & Q2 & E2). assert (Q3 : quiet w w2) by (by eapply quiet_trans). pose proof Q3 as (Eh & _).
    destruct (scan_next (w_heap w) (sc_node sc) (package_step (w_heap w)) false) as [r| |] eqn:Es; cbn [res_bind].
    + eexists _, w2. split; [done|]. unfold cbind. rewrite E, E2. unfold look. rewrite Eh, Es. reflexivity.
    + eexists _, w2. split; [done|]. unfold cbind. rewrite E, E2. unfold look. rewrite Eh, Es. reflexivity.
    + eexists. unfold cbind. rewrite E, E2. unfold look. rewrite Eh, Es. reflexivity.
  - destruct H as (log & w1 & Q & E). unfold cbind. rewrite E. eexists _, w1. split; [done|]. done.
  - destruct H as (log & w1 & Q & E). unfold cbind. rewrite E. by eexists _, w1.
Qed.
(** And for Copy: the new ast's elements answer like the library's copies. *)
Theorem C77_copy_like : forall U (um : methods U) f (w : world U) a scs h' scs',
  w_asts w !! f = Some a -> Forall2 (like_copy um) (slots w (a_scope a)) scs -> copy_scopes (w_heap w) scs = Ok (h', scs') ->
  exists log f' w' s', i_copy um f w = (log, Done f' w') /\ w_heap w' = h' /\ w_fs w' = w_fs w /\
    w_asts w' = w_asts w ++ [ast_set_scope a s'] /\ f' = length (w_asts w) /\ w_arr w `prefix_of` w_arr w' /\ sl_arr s' = length (w_arr w) /\
    Forall2 (like_kind um) (slots w' s') scs' /\ Forall2 (like_node um) (slots w' s') scs'.
Proof.
  intros U um f w a scs h' scs' Ha F Ec. unfold i_copy, range. rewrite !get_bind, Ha. fold (copy_body um). unfold slots in F. set (s := a_scope a) in *.
  assert (H : forall k i acc (w : world U), Forall2 (like_copy um) (map (element w s) (seq i k)) scs -> copy_scopes (w_heap w) scs = Ok (h', scs') ->
    exists log w1 vs', range_loop s (copy_body um) k i acc w = (log, Done (acc ++ vs') w1) /\ w_heap w1 = h' /\ w_arr w1 = w_arr w /\ w_asts w1 = w_asts w /\ w_fs w1 = w_fs w /\
      Forall2 (like_kind um) vs' scs' /\ Forall2 (like_node um) vs' scs').
  { clear. revert scs'. induction scs as [|o scs IH]; intros scs' k i acc w F Ec.
    - apply Forall2_nil_inv_r in F. destruct k; [|discriminate F]. cbn in Ec. injection Ec as <- <-. exists [], w, []. cbn. rewrite app_nil_r. done.
    - destruct k as [|k]; [by apply Forall2_nil_cons_inv in F|]. rewrite slots_from in F. apply Forall2_cons in F as [Lv F]. cbn [copy_scopes] in Ec. destruct o as [sc|]; [|discriminate Ec].
      destruct (scope_copy (w_heap w) sc) as [[h1 sc']| |] eqn:E1; try discriminate Ec. cbn [res_bind] in Ec.
      destruct (copy_scopes h1 scs) as [[h2 r']| |] eqn:E2; try discriminate Ec. cbn [res_bind] in Ec. injection Ec as <- <-.
      assert (exists v' w1, call_copy um (element w s i) w = ([Call (element w s i) MCopy], Done v' w1) /\ w_heap w1 = h1 /\ w_arr w1 = w_arr w /\ w_asts w1 = w_asts w /\ w_fs w1 = w_fs w /\ like_kind um v' (Some sc') /\ like_node um v' (Some sc')) as (v' & w1 & Cl & A1 & A2 & A3 & A4 & A5 & A6).
      { unfold call_copy. destruct (element w s i) as [[sc0|n]|]; cbn [like_copy] in Lv; [| |done].
        - subst sc0. rewrite E1. eexists _, _. split; [done|]. done.
        - destruct (Lv w h1 sc' E1) as (v' & w1 & E & ?). rewrite E. by exists v', w1. }
      assert (F1 : Forall2 (like_copy um) (map (element w1 s) (seq (Datatypes.S i) k)) scs).
      { assert (Es : map (element w1 s) (seq (Datatypes.S i) k) = map (element w s) (seq (Datatypes.S i) k)); [|by rewrite Es]. apply map_ext. intros j. unfold element. by rewrite A2. }
      destruct (IH r' k (Datatypes.S i) (acc ++ [v']) w1 F1) as (log & w2 & vs' & E & B1 & B2 & B3 & B4 & B5 & B6); [by rewrite A1|].
      rewrite <- (app_assoc acc [v'] vs') in E. cbn [app] in E. eexists _, w2, (v' :: vs'). rewrite range_loop_S. unfold copy_body at 1. unfold cbind. rewrite Cl. unfold cret at 1. rewrite E.
      split; [reflexivity|]. do 4 (split; [congruence|]). split; by constructor. }
  destruct (H (sl_len s) 0 [] w F Ec) as (log & w1 & vs' & E & B1 & B2 & B3 & B4 & B5 & B6). unfold cbind. rewrite E. unfold alloc_slice, get_ast, alloc_ast. cbn [w_asts app]. rewrite B3, Ha.
  cbn [w_asts w_heap w_arr w_fs w_user]. eexists _, _, _, _. split; [reflexivity|]. cbn [w_asts w_heap w_arr w_fs]. rewrite B2.
  split; [done|]. split; [done|]. split; [reflexivity|]. split; [done|]. split; [by eexists|]. split; [done|].
  assert (Es : forall x (w' : world U), w_arr w' = w_arr w ++ [vs'] -> x = vs' -> slots w' (mkSlice (length (w_arr w)) 0 (length x) (length x)) = vs').
  { intros x w' Ew ->. unfold slots. cbn [sl_len]. apply list_eq. intros j. rewrite list_lookup_fmap.
    destruct (decide (j < length vs')) as [Lj|Lj].
    - rewrite lookup_seq_lt by done. cbn [fmap option_fmap option_map Nat.add]. rewrite <- slot_element. unfold slot. cbn [sl_arr sl_off Nat.add]. rewrite Ew.
      rewrite lookup_app_r by lia. rewrite Nat.sub_diag. cbn [list_lookup lookup default]. destruct (lookup_lt_is_Some_2 vs' j Lj) as [y Ey]. unfold id. rewrite Ey. done.
    - rewrite lookup_seq_ge by lia. symmetry. apply lookup_ge_None. lia. }
  rewrite Es by (cbn [w_arr]; congruence). done.
Qed.

(** ** Examples *)
(** A file of two scopes: a package clause and a function, and a text that says
    something else; object 0 wraps the function and counts the questions it is
    asked; object 1 panics when asked for its node. *)
Definition ex_ih : heap :=
  [mkNode 0 KPackage $"package" None (Some 1); mkNode 0 KRaw $"a" (Some 0) None;
   mkNode 1 KFunc $"func" None (Some 3); mkNode 1 KFuncName $"f" (Some 2) None;
   mkNode 2 KComment $"// other" None None].
Definition ex_pkg : scope := mkScope 0 SPackage (Some 0).
Definition ex_fun : scope := mkScope 1 SFunc (Some 2).
Definition ex_tick (w : world nat) : world nat := mkWorld (w_heap w) (w_arr w) (w_asts w) (w_fs w) (Datatypes.S (w_user w)).
Definition ex_um : methods nat := mkMethods nat
  (fun _ w => Done SFunc (ex_tick w)) (fun _ w => Done 2%Z w)
  (fun _ w => Done (scope_description (Some ex_fun)) (ex_tick w)) (fun _ w => Done tt w)
  (fun o w => match o with 0 => Done (Some 2) (ex_tick w) | 1 => Panicked w | _ => Hangs end)
  (fun _ _ w => Done ([], false) w)
  (fun _ w => match scope_copy (w_heap w) ex_fun with
              | Ok (h, sc') => Done (Some (Lib sc')) (mkWorld h (w_arr w) (w_asts w) (w_fs w) (Datatypes.S (w_user w)))
              | _ => Hangs end).
Definition ex_w (vs : list (option ival)) : world nat :=
  mkWorld ex_ih [vs] [mkAst [] [] [] [] (mkSlice 0 0 (length vs) (length vs))] ex_fs 0.
(** The hypotheses of the theorems about wrappers are met, and the counter shows
    who was asked. *)
Example ex_C77_like :
  let w := ex_w [Some (Lib ex_pkg); Some (User 0)] in
  exists a, w_asts w !! 0 = Some a /\
    let scs := [Some ex_pkg; Some ex_fun] in
    Forall2 (like_node ex_um) (slots w (a_scope a)) scs /\ Forall2 (like_kind ex_um) (slots w (a_scope a)) scs /\
    Forall2 (like_description ex_um) (slots w (a_scope a)) scs /\ Forall2 (like_copy ex_um) (slots w (a_scope a)) scs /\
    (exists h' scs', copy_scopes (w_heap w) scs = Ok (h', scs')) /\
    (exists log w', i_save ex_um ex_env 0 $"x" false w = (log, Done None w') /\ w_fs w' $"x.go" = Some $"packageafuncf" /\ w_user w' = 1) /\
    (exists log w', i_package ex_um 0 w = (log, Done (inl $"a") w') /\ log = [Call (Some (Lib ex_pkg)) MKind; Call (Some (Lib ex_pkg)) MNode]).
Proof.
  eexists. split; [reflexivity|]. cbn [slots a_scope sl_len seq map length]. split; [|split; [|split; [|split; [|split; [|split]]]]].
  - constructor; [done|]. constructor; [|constructor]. intros w. exists (ex_tick w). done.
  - constructor; [done|]. constructor; [|constructor]. intros w. exists (ex_tick w). done.
  - constructor; [done|]. constructor; [|constructor]. intros w. exists (ex_tick w). done.
  - constructor; [done|]. constructor; [|constructor]. intros w h sc' E. cbn [ex_um um_copy]. rewrite E. eexists _, _. split; [done|]. done.
  - eexists _, _. vm_compute. reflexivity.
  - eexists _, _. split; [vm_compute; reflexivity|]. split; vm_compute; reflexivity.
  - eexists _, _. split; [vm_compute; reflexivity|]. vm_compute. reflexivity.
Qed.
(** A scope that panics or hangs when it is asked: Save stops there, the scopes
    after it are not asked, and the file is as it was; Package never asks it. *)
Example ex_C77_stop :
  (exists log w', i_save ex_um ex_env 0 $"x" false (ex_w [Some (Lib ex_pkg); Some (User 1); Some (User 0)]) = (log, Panicked w') /\
     w_fs w' = ex_fs /\ w_user w' = 0) /\
  (exists log, i_save ex_um ex_env 0 $"x" false (ex_w [Some (User 0); Some (User 2); Some (Lib ex_pkg)]) = (log, Hangs) /\
     log = [Call (Some (User 0)) MNode; Call (Some (User 2)) MNode]) /\
  exists log w', i_package ex_um 0 (ex_w [Some (Lib ex_pkg); Some (User 1)]) = (log, Done (inl $"a") w').
Proof.
  split; [|split].
  - eexists _, _. split; [vm_compute; reflexivity|]. split; reflexivity.
  - eexists. split; [vm_compute; reflexivity|]. reflexivity.
  - eexists _, _. vm_compute. reflexivity.
Qed.
(** That Save writes the scopes that were in the list when it was called is false:
    a Node method may exchange a later element (or append to a shared array), and
    the new one is saved. *)
Definition ex_um2 : methods unit := mkMethods unit
  (fun _ w => Done SFunc w) (fun _ w => Done 2%Z w) (fun _ w => Done [] w) (fun _ w => Done tt w)
  (fun _ w => Done (Some 2) (mkWorld (w_heap w) [[Some (User 0); Some (Lib (mkScope 2 SComment (Some 4)))]] (w_asts w) (w_fs w) (w_user w)))
  (fun _ _ w => Done ([], false) w) (fun o w => Done (Some (User o)) w).
Theorem C77_snapshot_refuted : exists (um : methods unit) e w f a n sc1 sc2,
  w_asts w !! f = Some a /\ slots w (a_scope a) = [Some (User n); Some (Lib sc1)] /\
  sc_node sc1 <> sc_node sc2 /\
  exists log w', i_save um e f $"x" false w = (log, Done None w') /\ log !! 1 = Some (Call (Some (Lib sc2)) MNode) /\
    (* "funcf" and sc2's text, not sc1's *)
    w_fs w' $"x.go" = Some $"funcf// other" /\ chain_text (w_heap w) (sc_node sc1) = Ok $"packagea".
Proof.
  exists ex_um2, ex_env, (mkWorld ex_ih [[Some (User 0); Some (Lib ex_pkg)]] [mkAst [] [] [] [] (mkSlice 0 0 2 2)] ex_fs tt), 0.
  eexists _, 0, ex_pkg, (mkScope 2 SComment (Some 4)). split; [reflexivity|]. split; [reflexivity|]. split; [done|].
  eexists _, _. split; [vm_compute; reflexivity|]. split; [reflexivity|]. split; vm_compute; reflexivity.
Qed.
