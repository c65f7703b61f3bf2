(** * No deadlock, no concurrent use of a Reader, no race (proofs) *)
From Coq Require Import ZifyBool.
From Verif Require Import Wf.
From Verif Require Export ConcFresh.

Section Main.
Context {W : Type} (E : env W) (fuel : nat).
Implicit Types h : heap W.
Implicit Types cf : conf W.
Notation cstep := (cstep E fuel).
Notation csteps := (csteps E fuel).

Lemma csteps_app cf1 evs1 cf2 evs2 cf3 : csteps cf1 evs1 cf2 -> csteps cf2 evs2 cf3 -> csteps cf1 (evs1 ++ evs2) cf3.
Proof. intros H1 H2. induction H2 as [|evs cf3 e cf4 _ IH Hs]; [by rewrite app_nil_r|]. rewrite app_assoc. by econstructor. Qed.
Lemma csteps_one cf e cf' : cstep cf e cf' -> csteps cf match e with Some e => [e] | None => [] end cf'.
Proof. intros H. apply (css_snoc E fuel cf [] cf e cf'); [constructor|done]. Qed.
Lemma csteps_first cf evs cf' : csteps cf evs cf' ->
  (cf' = cf /\ evs = []) \/ exists e cf1 evs1, cstep cf e cf1 /\ evs = match e with Some e => [e] | None => [] end ++ evs1.
Proof.
  intros H. induction H as [|evs cf1 e cf2 _ [[-> ->]|(e1 & cf3 & evs1 & H1 & ->)] Hs]; [by left| |]; right.
  - exists e, cf2, []. split; [done|]. by rewrite app_nil_r.
  - exists e1, cf3, (evs1 ++ match e with Some e => [e] | None => [] end). split; [done|]. by rewrite app_assoc.
Qed.
Lemma quiet_app evs1 evs2 : quiet evs1 -> quiet evs2 -> quiet (evs1 ++ evs2).
Proof. intros H1 H2 t c. rewrite elem_of_app. intros [H|H]; [by eapply H1|by eapply H2]. Qed.
Lemma quiet_nil : quiet [].
Proof. intros t c. apply not_elem_of_nil. Qed.
Lemma quiet_fin t o : quiet [Fin t o].
Proof. intros t' c. by rewrite elem_of_list_singleton. Qed.

(** *** Running one goroutine to the end *)
Definition unhindered (L : lock -> option tid) (s : ph) : Prop :=
  match s with
  | P0 => forall l, L l = None
  | PN _ _ | PM _ _ _ _ | PA _ | PB _ _ | PG _ _ _ | PE _ _ _ => forall c, L (MuC c) = None
  | PC _ _ _ _ _ | PX _ _ _ | PD _ _ _ _ | PF _ => True
  end.

Lemma goes_on L t P s X (a : act X) x : ok P s a -> (forall l, L l = Some t <-> l ∈ holds s) -> unhindered L s ->
  exists L', lock_step L t a = Some L' /\ unhindered L' (nx s a x) /\ (forall l t', t' <> t -> L' l = Some t' <-> L l = Some t').
Proof.
  intros Hok HL Hu.
  destruct a; cbn [lock_step].
  3-15: eexists; (split; [done|]); (split; [|done]); destruct s; cbn in Hok; try done; cbn in *; try done;
    repeat match goal with |- context [match ?e with _ => _ end] => destruct e; cbn; try done end.
  - assert (Hl : L l = None).
    { destruct s; cbn in Hok; try done; destruct l; try done; subst; apply Hu. }
    rewrite Hl. eexists. split; [done|]. split.
    + destruct s; cbn in Hok; try done; destruct l; try done; cbn. intros c. rewrite fn_lookup_insert_ne by done. apply Hu.
    + intros l' t' Hne. destruct (decide (l = l')) as [<-|Hn]; [rewrite fn_lookup_insert|by rewrite fn_lookup_insert_ne]. naive_solver.
  - assert (Hl : L l = Some t).
    { apply HL. destruct s; cbn in Hok; try done; destruct l; try done; destruct_and?; subst; cbn; set_solver. }
    destruct (decide _); [|done]. eexists. split; [done|]. split.
    + destruct s; cbn in Hok; try done; destruct l; try done; cbn; try done; (destruct o as [[? ?]|]; done).
    + intros l' t' Hne. destruct (decide (l = l')) as [<-|Hn]; [rewrite fn_lookup_insert|by rewrite fn_lookup_insert_ne]. naive_solver.
Qed.

Lemma alloc_none {X} h (a : act X) : alloc_step E h a = None -> forall b, newb a b = None.
Proof. by destruct a. Qed.

(** The goroutine stands at [m] after the allocations of [m0]. *)
Lemma solo t c m : forall h S T L K h0 m0, binv (Conf h L (<[t := Busy c m]> T) K) S -> T t = Busy c m0 -> allocs E h0 m0 = allocs E h m ->
  unhindered L (S t) ->
  exists evs cf', csteps (Conf h0 L T K) evs cf' /\ quiet evs /\
    ((cf_t cf' t = Idle /\ forall t', t' <> t -> cf_t cf' t' = T t') \/ spinning E cf' t).
Proof.
  induction m as [r|e| |X a k IH]; intros h S T L K h0 m0 HB HT Hal Hu.
  - eexists _, _. split; [apply csteps_one, (cs_fin _ _ _ t c m0 h (Ret r) (ORet r)); done|]. split; [apply quiet_fin|]. left. cbn.
    split; [by rewrite fn_lookup_insert|]. intros. by rewrite fn_lookup_insert_ne.
  - eexists _, _. split; [apply csteps_one, (cs_fin _ _ _ t c m0 h (Panic e) (OPanic e)); done|]. split; [apply quiet_fin|]. left. cbn.
    split; [by rewrite fn_lookup_insert|]. intros. by rewrite fn_lookup_insert_ne.
  - exists [], (Conf h0 L T K). split; [constructor|]. split; [apply quiet_nil|]. right. exists c, m0, h. done.
  - pose proof (bi_thr _ _ HB t) as Ht. cbn in Ht. rewrite fn_lookup_insert in Ht. destruct (tok_busy _ _ _ _ _ _ Ht) as (Hok & Hk & Hhd). clear Ht.
    destruct (act_possible E h (par_of c) (S t) X a) as [[h' x] Ha]; [exact (so_d _ _ (bi_so _ _ HB t))|exact (so_m _ _ (bi_so _ _ HB t))|done|].
    destruct (goes_on L t _ (S t) X a x Hok) as (L' & HL & Hu' & Hoth); [intros l; apply (bi_lock _ _ HB)|done|].
    pose proof (fine_step E _ _ _ _ _ _ _ _ _ _ _ _ _ HB (fn_lookup_insert _ _ _) HL Ha) as HB'.
    cbn [allocs] in Hal. destruct (alloc_step E h a) as [[h1 x1]|] eqn:Has.
    + destruct (alloc_is E _ _ _ _ L t Has) as [Ha1 HL1]. rewrite Ha in Ha1. injection Ha1 as <- <-. rewrite HL in HL1. injection HL1 as ->.
      eapply (IH x h'); [|done|done|].
      * eapply binv_ext; [|done|exact HB']. intros t'. by rewrite upd_twice.
      * by rewrite fn_lookup_insert.
    + assert (Hst : cstep (Conf h0 L T K) None (Conf h' L' (<[t := Busy c (k x)]> T) K)) by (eapply (cs_act _ _ (Conf h0 L T K) t c m0 h X a k); done).
      destruct (IH x h' (<[t:=nx (S t) a x]> S) (<[t := Busy c (k x)]> T) L' K h' (k x)) as (evs & cf' & H1 & H2 & H3); [|by rewrite fn_lookup_insert|done|by rewrite fn_lookup_insert|].
      { eapply binv_ext; [|done|exact HB']. intros t'. by rewrite !upd_twice. }
      exists ([] ++ evs), cf'. split; [eapply csteps_app; [by apply (csteps_one _ _ _ Hst)|done]|]. split; [done|].
      destruct H3 as [[H3 H4]|H3]; [left|by right]. split; [done|]. intros t' Hne. rewrite H4 by done. by rewrite fn_lookup_insert_ne.
Qed.

Lemma binv_csteps cf S evs cf' : csteps cf evs cf' -> binv cf S -> exists S', binv cf' S'.
Proof. intros H HB. induction H as [|evs cf1 e cf2 _ [S' IH] Hs]; [eauto|]. by eapply binv_step. Qed.

Definition busy (x : tstate) : bool := match x with Idle => false | Busy _ _ => true end.
Definition inner (s : ph) : bool := match s with PC _ _ _ _ _ | PX _ _ _ => true | _ => false end.
Definition begun (s : ph) : bool := match s with P0 => false | _ => true end.

Lemma all_finish : forall n bs cf S, (length bs <= n)%nat -> (forall t, busy (cf_t cf t) = true -> t ∈ bs) -> binv cf S ->
  exists evs cf', csteps cf evs cf' /\ quiet evs /\ ((forall t, cf_t cf' t = Idle) \/ exists t, spinning E cf' t).
Proof.
  induction n as [|n IH]; intros bs cf S Hn Hbs HB.
  { exists [], cf. split; [constructor|]. split; [apply quiet_nil|]. left. intros t. destruct (cf_t cf t) eqn:Ht; [done|].
    assert (t ∈ bs) as Hin by (apply Hbs; by rewrite Ht). destruct bs; [by apply elem_of_nil in Hin|cbn in Hn; lia]. }
  assert (Hone : forall t, busy (cf_t cf t) = true -> unhindered (cf_l cf) (S t) ->
    exists evs cf', csteps cf evs cf' /\ quiet evs /\ ((forall t, cf_t cf' t = Idle) \/ exists t, spinning E cf' t)).
  { intros t Hbt Hu. destruct cf as [h L T K]. cbn in *. destruct (T t) as [|c m] eqn:HT; [done|].
    destruct (solo t c m h S T L K h m) as (evs & cf' & H1 & H2 & H3); [|done|done|done|].
    { eapply binv_ext; [|done|exact HB]. by apply upd_same. }
    destruct H3 as [[H3 H4]|H3]; [|exists evs, cf'; eauto].
    destruct (binv_csteps _ _ _ _ H1 HB) as [S' HB'].
    destruct (IH (filter (fun t' => t' <> t) bs) cf' S') as (evs' & cf'' & H5 & H6 & H7); [| |done|].
    - assert (length (filter (fun t' => t' <> t) bs) < length bs)%nat; [|lia]. eapply filter_length_lt; [apply Hbs; rewrite HT; done|by intros ?].
    - intros t' Ht'. apply elem_of_list_filter. destruct (decide (t' = t)) as [->|Hne]; [by rewrite H3 in Ht'|]. split; [done|]. rewrite H4 in Ht' by done. by apply Hbs.
    - exists (evs ++ evs'), cf''. split; [by eapply csteps_app|]. split; [by apply quiet_app|done]. }
  assert (Hidle : forall t, busy (cf_t cf t) = false -> S t = PF None).
  { intros t Ht. pose proof (bi_thr _ _ HB t) as Htok. by destruct (cf_t cf t). }
  destruct (decide (Exists (fun t => inner (S t) = true) bs)) as [Hex|Hin].
  { apply Exists_exists in Hex as (t & Ht & Hi). apply (Hone t); [|by destruct (S t)]. destruct (busy (cf_t cf t)) eqn:Hb; [done|]. by rewrite (Hidle _ Hb) in Hi. }
  assert (HC : forall c, cf_l cf (MuC c) = None).
  { intros c. destruct (cf_l cf (MuC c)) as [t|] eqn:Hl; [|done]. exfalso. apply Hin. apply Exists_exists. apply (bi_lock _ _ HB) in Hl.
    exists t. split; [|destruct (S t); cbn in Hl; set_solver]. apply Hbs. destruct (busy (cf_t cf t)) eqn:Hb; [done|]. rewrite (Hidle _ Hb) in Hl. cbn in Hl. set_solver. }
  destruct (decide (Exists (fun t => busy (cf_t cf t) = true /\ begun (S t) = true) bs)) as [Hex|Hbg].
  { apply Exists_exists in Hex as (t & Ht & Hb & Hi). apply (Hone t); [done|]. by destruct (S t). }
  assert (HN : forall l, cf_l cf l = None).
  { intros l. destruct (cf_l cf l) as [t|] eqn:Hl; [|done]. exfalso. apply Hbg. apply Exists_exists. apply (bi_lock _ _ HB) in Hl.
    assert (busy (cf_t cf t) = true) as Hb by (destruct (busy (cf_t cf t)) eqn:Hb; [done|]; rewrite (Hidle _ Hb) in Hl; cbn in Hl; set_solver).
    exists t. split; [by apply Hbs|]. split; [done|]. destruct (S t); cbn in Hl; try done. set_solver. }
  destruct (decide (Exists (fun t => busy (cf_t cf t) = true) bs)) as [Hex|Hno].
  { apply Exists_exists in Hex as (t & Ht & Hb). apply (Hone t); [done|]. destruct (S t); cbn; try done; intros; apply HN. }
  exists [], cf. split; [constructor|]. split; [apply quiet_nil|]. left. intros t. destruct (cf_t cf t) eqn:Ht; [done|].
  exfalso. apply Hno. apply Exists_exists. exists t. assert (busy (cf_t cf t) = true) by (by rewrite Ht). eauto.
Qed.

Lemma busy_few w evs cf : csteps (start w) evs cf -> exists bs : list tid, forall t, busy (cf_t cf t) = true -> t ∈ bs.
Proof.
  intros H. induction H as [|evs cf1 e cf2 _ [bs IH] Hs]; [by exists []|].
  assert (exists t, forall t', t' <> t -> cf_t cf2 t' = cf_t cf1 t') as [t Ht].
  { destruct Hs; exists t; cbn; intros; by rewrite fn_lookup_insert_ne. }
  exists (t :: bs). intros t' Hb. apply elem_of_cons. destruct (decide (t' = t)) as [->|Hne]; [by left|]. right. apply IH. by rewrite <- Ht.
Qed.

Lemma idle_free cf S : binv cf S -> (forall t, cf_t cf t = Idle) -> forall l, cf_l cf l = None.
Proof.
  intros HB Hi l. destruct (cf_l cf l) as [t|] eqn:Hl; [|done]. apply (bi_lock _ _ HB) in Hl. pose proof (bi_thr _ _ HB t) as Ht. rewrite Hi in Ht. cbn in Ht.
  rewrite Ht in Hl. cbn in Hl. by apply elem_of_nil in Hl.
Qed.

Theorem can_finish w evs cf : csteps (start w) evs cf ->
  exists evs' cf', csteps cf evs' cf' /\ quiet evs' /\
    (((forall t, cf_t cf' t = Idle) /\ forall l, cf_l cf' l = None) \/ exists t, spinning E cf' t).
Proof.
  intros H. destruct (binv_steps E fuel w evs cf H) as [S HB]. destruct (busy_few w evs cf H) as [bs Hbs].
  destruct (all_finish (length bs) bs cf S) as (evs' & cf' & H1 & H2 & H3); [done..|].
  exists evs', cf'. split; [done|]. split; [done|]. destruct H3 as [H3|H3]; [left|by right]. split; [done|].
  destruct (binv_csteps _ _ _ _ H1 HB) as [S' HB']. by eapply idle_free.
Qed.

Theorem progress w evs cf : csteps (start w) evs cf -> (exists t, cf_t cf t <> Idle) -> (forall t, ~ spinning E cf t) ->
  exists e cf', cstep cf e cf' /\ forall t c, e <> Some (Inv t c).
Proof.
  intros H [t Ht] Hn. destruct (can_finish w evs cf H) as (evs' & cf' & H1 & H2 & H3).
  destruct (csteps_first _ _ _ H1) as [[-> _]|(e & cf1 & evs1 & H4 & ->)].
  - destruct H3 as [[H3 _]|[t' H3]]; [by destruct Ht|by destruct (Hn t')].
  - exists e, cf1. split; [done|]. intros t' c ->. apply (H2 t' c). set_solver.
Qed.

Theorem idle_holds_nothing w evs cf t l : csteps (start w) evs cf -> cf_l cf l = Some t -> cf_t cf t <> Idle.
Proof.
  intros H Hl Hi. destruct (binv_steps E fuel w evs cf H) as [S HB]. apply (bi_lock _ _ HB) in Hl. pose proof (bi_thr _ _ HB t) as Ht. rewrite Hi in Ht.
  cbn in Ht. rewrite Ht in Hl. cbn in Hl. by apply elem_of_nil in Hl.
Qed.

(** *** The phase of a goroutine that is at an action *)
Lemma at_phase w evs cf t X (a : act X) : csteps (start w) evs cf -> at_act E cf t a ->
  exists S O s c, cinv (made evs) cf S O /\ ok (par_of c) s a /\ (forall l, cf_l cf l = Some t <-> l ∈ holds s) /\ (exists m, cf_t cf t = Busy c m).
Proof.
  intros H (c & m & h1 & k & HT & Hal). destruct (cinv_steps E fuel w evs cf H) as (S & O & HI). destruct cf as [h L T K]. cbn in *.
  destruct (cinv_allocs E (made evs) L K t c m (fun r => busy_made E fuel _ _ _ H t c m r HT) _ _ _ _ _ _ HI HT Hal) as (s & O' & HI').
  exists S, O, s, c. split; [done|]. pose proof (bi_thr _ _ (ci_b _ _ _ _ HI') t) as Ht. cbn in Ht. rewrite !fn_lookup_insert in Ht.
  destruct Ht as [[Hok _] _]. split; [done|]. split; [|eauto]. intros l. rewrite (bi_lock _ _ (ci_b _ _ _ _ HI') l t). by rewrite fn_lookup_insert.
Qed.

Theorem lock_order w evs cf t l : csteps (start w) evs cf -> at_act E cf t (Lock l) ->
  match l with MuB _ => forall l', cf_l cf l' <> Some t | MuC _ => forall l', cf_l cf l' = Some t -> exists i, l' = MuB i end.
Proof.
  intros H Hat. destruct (at_phase _ _ _ _ _ _ H Hat) as (S & O & s & c & _ & Hok & Hl & _). destruct s; cbn in Hok; try done; destruct l; try done; intros l'; rewrite ?Hl; cbn;
    try (rewrite ?elem_of_cons, ?elem_of_nil; naive_solver).
Qed.
Theorem unlock_held w evs cf t l : csteps (start w) evs cf -> at_act E cf t (Unlock l) -> cf_l cf l = Some t.
Proof.
  intros H Hat. destruct (at_phase _ _ _ _ _ _ H Hat) as (S & O & s & c & _ & Hok & Hl & _). apply Hl. destruct s; cbn in Hok; try done; destruct l; try done; destruct_and?; subst; cbn; set_solver.
Qed.

(** *** Actions other than on locks come without allocations *)
Definition on_lock {X} (a : act X) : bool := match a with Lock _ | Unlock _ => true | _ => false end.
Definition allocated (s : ph) : bool := match s with PN _ _ | PM _ _ _ _ | PG _ _ _ | PF _ => true | _ => false end.
Lemma alloc_then_lock P m : forall s h h1 X (a : act X) (k : X -> prog res), allocated s = true -> keeps P s m (stops P) -> allocs E h m = (h1, Do a k) -> on_lock a = true.
Proof.
  induction m as [r|e| |Y b k' IH]; intros s h h1 X a k Hs Hk; cbn [allocs]; try done.
  destruct Hk as (Hok & _ & Hk). destruct (alloc_step E h b) as [[h' x]|] eqn:Ha.
  - apply (IH x (nx s b x)); [|apply Hk; by destruct s]. destruct s; try done; destruct b; try done.
  - intros Heq. assert (on_lock b = true) as Hb by (destruct s; try done; destruct b; try done).
    set (f := fun m : prog res => match m with Do a _ => on_lock a | _ => false end). apply (f_equal (fun p => f (snd p))) in Heq. cbn in Heq. by rewrite <- Heq.
Qed.
Lemma at_direct cf S t X (a : act X) : binv cf S -> at_act E cf t a -> on_lock a = false ->
  exists c m, cf_t cf t = Busy c m /\ ok (par_of c) (S t) a /\ dyn (cf_h cf) (S t).
Proof.
  intros HB (c & m & h1 & k & HT & Hal) Hl. pose proof (bi_thr _ _ HB t) as Ht. rewrite HT in Ht. destruct Ht as [Hk _].
  exists c, m. split; [done|]. split; [|exact (so_d _ _ (bi_so _ _ HB t))].
  destruct m as [| | |Y b k']; try done. cbn in Hal, Hk. destruct Hk as (Hok & _ & Hk). destruct (alloc_step E (cf_h cf) b) as [[h' x]|] eqn:Ha.
  - exfalso. assert (on_lock a = true); [|congruence]. eapply (alloc_then_lock _ _ (nx (S t) b x)); [|apply Hk|exact Hal].
    + destruct (S t); destruct b; done.
    + destruct (S t); try done; destruct b; try done; by destruct cur.
  - set (f := fun m : prog res => match m with Do a _ => ok (par_of c) (S t) a | _ => False end). apply (f_equal (fun p => f (snd p))) in Hal. cbn in Hal. by rewrite <- Hal.
Qed.

Theorem reader_exclusive w evs cf t1 t2 r : csteps (start w) evs cf -> NoDup (made evs) -> calling E cf t1 r -> calling E cf t2 r -> t1 = t2.
Proof.
  intros H HN C1 C2. destruct (cinv_steps E fuel w evs cf H) as (S & O & [HB HF HO _]). specialize (HO HN).
  assert (Hown : forall t, calling E cf t r -> O r = Some (inl t) \/ exists c, O r = Some (inr c) /\ cf_l cf (MuC c) = Some t).
  { intros t (X & a & Hat & Hr). destruct (at_direct cf S t X a HB Hat) as (c & m & HT & Hok & Hd); [by destruct a|].
    destruct (S t) eqn:HS; destruct a; cbn in Hok, Hr; try done; injection Hr as ->.
    - left. by eapply (ow_0 _ _ _ HO).
    - left. by eapply (ow_0 _ _ _ HO).
    - right. exists c0. split; [by eapply (ow_r _ _ _ HO)|]. apply (bi_lock _ _ HB). rewrite HS. cbn. set_solver.
    - right. exists c0. split; [by eapply (ow_r _ _ _ HO)|]. apply (bi_lock _ _ HB). rewrite HS. cbn. set_solver.
    - right. exists c0. split; [by eapply (ow_r _ _ _ HO)|]. apply (bi_lock _ _ HB). rewrite HS. cbn. set_solver.
    - right. exists c0. split; [by eapply (ow_r _ _ _ HO)|]. apply (bi_lock _ _ HB). rewrite HS. cbn. set_solver. }
  destruct (Hown _ C1) as [H1|(c1 & H1 & H2)], (Hown _ C2) as [H3|(c2 & H3 & H4)]; congruence.
Qed.

(** *** Accesses to the fields *)
Lemma shared_use cf S t X (a : act X) c : binv cf S -> at_act E cf t a -> reads_shared a = Some c \/ writes_shared a = Some c ->
  cf_l cf (MuC c) = Some t \/
  (reads_shared a = Some c /\ exists i b m, cf_t cf t = Busy (Call i BytesRemaining) m /\ h_b (cf_h cf) !! i = Some (BSeeker b) /\ sb_common b = Some c /\ cf_l cf (MuB i) = Some t).
Proof.
  intros HB Hat Ha. destruct (at_direct cf S t X a HB Hat) as (c' & m & HT & Hok & Hd); [destruct a; naive_solver|].
  assert (Hlk : forall l, l ∈ holds (S t) -> cf_l cf l = Some t) by (intros l; apply (bi_lock _ _ HB)).
  destruct (S t) eqn:HS; destruct a; cbn in Hok, Ha; try done; try (by destruct Ha).
  - right. destruct Ha as [[= ->]|]; [|done]. split; [done|]. destruct Hok as (H1 & H2 & H3). destruct b; try done. destruct Hd as [Hd _].
    cbn in H3. pose proof (bi_thr _ _ HB t) as Ht. rewrite HT, HS in Ht. destruct Ht as (_ & _ & Ht). specialize (Ht i ltac:(cbn; set_solver)).
    destruct c'; try done. cbn in Ht. injection Ht as ->. destruct f; try done. eexists i, b, m. split; [done|]. split; [done|]. split; [done|]. apply Hlk. cbn. set_solver.
  - left. destruct Ha as [[= ->]|]; [|done]. subst. apply Hlk. cbn. set_solver.
  - left. destruct Ha as [|[= ->]]; [done|]. destruct Hok as [-> _]. apply Hlk. cbn. set_solver.
Qed.

Theorem shared_access w evs cf t X (a : act X) c : csteps (start w) evs cf -> at_act E cf t a -> reads_shared a = Some c \/ writes_shared a = Some c ->
  cf_l cf (MuC c) = Some t \/
  (reads_shared a = Some c /\ exists i b m, cf_t cf t = Busy (Call i BytesRemaining) m /\ h_b (cf_h cf) !! i = Some (BSeeker b) /\ sb_common b = Some c /\ cf_l cf (MuB i) = Some t).
Proof. intros H Hat Ha. destruct (cinv_steps E fuel w evs cf H) as (S & O & [HB _ _ _]). by eapply shared_use. Qed.

Lemma writes_held P s X (a : act X) i : ok P s a -> writes_body a = Some i -> MuB i ∈ holds s.
Proof.
  intros Hok Hw. destruct a; cbn in Hw; try done. injection Hw as ->. destruct s; cbn in Hok; try done.
  - destruct Hok as (-> & _). left.
  - destruct Hok as (b0 & -> & _). right. left.
  - destruct Hok as (-> & _). left.
Qed.
Lemma uses_held P s X (a : act X) i : ok P s a -> reads_body a = Some i \/ writes_body a = Some i ->
  MuB i ∈ holds s \/ fr s = Some i \/ exists o c d x rs, s = PC o c d (Some x) rs /\ i ∈ bodies_of x.
Proof.
  intros Hok [Hw|Hw]; [|left; by eapply writes_held]. destruct a; cbn in Hw; try done. injection Hw as ->. destruct s; cbn in Hok; try done.
  - left. subst. left.
  - destruct Hok as [Hi|[Hi|(x & -> & Hi)]]; [left|right; left|right; right; eauto 10].
    + destruct o as [[]|]; cbn in *; [|by apply elem_of_nil in Hi]. apply elem_of_list_singleton in Hi as ->. right. left.
    + destruct d as [[j k]|]; cbn in Hi; [|by apply elem_of_nil in Hi]. by apply elem_of_list_singleton in Hi as ->.
Qed.

Theorem body_race_free w evs cf t1 t2 X1 (a1 : act X1) X2 (a2 : act X2) i : csteps (start w) evs cf ->
  at_act E cf t1 a1 -> at_act E cf t2 a2 -> writes_body a1 = Some i -> reads_body a2 = Some i \/ writes_body a2 = Some i -> t1 = t2.
Proof.
  intros H A1 A2 Hw Hu. destruct (cinv_steps E fuel w evs cf H) as (S & O & [HB HF _ _]).
  destruct (at_direct cf S t1 _ a1 HB A1) as (c1 & m1 & HT1 & Hok1 & Hd1); [by destruct a1|].
  destruct (at_direct cf S t2 _ a2 HB A2) as (c2 & m2 & HT2 & Hok2 & Hd2); [destruct a2; naive_solver|].
  assert (Hex : forall l, l ∈ holds (S t1) -> l ∈ holds (S t2) -> t1 = t2) by (intros l H1 H2; apply (bi_lock _ _ HB) in H1, H2; congruence).
  assert (Hh1 : MuB i ∈ holds (S t1)).
  { by eapply writes_held. }
  destruct (decide (MuB i ∈ holds (S t2))) as [Hh2|Hh2]; [by eapply Hex|].
  pose proof (fi_held _ _ HF _ _ Hh1) as HK.
  assert (Hsib : exists o c d x rs, S t2 = PC o c d (Some x) rs /\ i ∈ bodies_of x).
  { destruct (uses_held _ _ _ _ _ Hok2 Hu) as [?|[Hi|Hi]]; [done| |done]. exfalso. by apply (fi_fresh _ _ HF t2 i). }
  destruct Hsib as (o & c & d & x & rs & HS2 & Hi). rewrite HS2 in Hd2. destruct Hd2 as (_ & _ & _ & Hc). specialize (Hc _ eq_refl).
  destruct (so_m _ _ (bi_so _ _ HB t2) _ _ _ Hc Hi) as (bi & Hbi & Hki). pose proof (fi_mem _ _ HF _ _ _ Hc Hi) as Hcm.
  pose proof (fi_loc _ _ HF t1) as Hl1.
  destruct (S t1) eqn:HS1; destruct a1; cbn in Hok1, Hw; try done; injection Hw as ->.
  - destruct Hok1 as (-> & _ & _ & Hn & _). destruct Hd1 as [Hd1 _]. congruence.
  - destruct Hok1 as (b0 & -> & _). destruct Hd1 as (_ & Hd1 & _). destruct (Hd1 _ _ eq_refl) as [(b2 & Hb2 & Hk2) _].
    destruct (proj2 Hl1 _ _ eq_refl) as [H1 _]; [congruence|]. apply (Hex (MuC c)); [|rewrite HS2; cbn; set_solver]. assert (c0 = c) as -> by congruence. cbn. set_solver.
  - destruct Hok1 as (-> & _ & _ & Ho & _). destruct Hd1 as [(b2 & Hb2 & Hk2) _]. exfalso. cbn in Hl1. rewrite Ho in Hl1 by congruence. eapply Hl1; [congruence|done|done].
Qed.

Theorem shared_race_free w evs cf t1 t2 X1 (a1 : act X1) X2 (a2 : act X2) c : csteps (start w) evs cf ->
  at_act E cf t1 a1 -> at_act E cf t2 a2 -> writes_shared a1 = Some c -> reads_shared a2 = Some c \/ writes_shared a2 = Some c ->
  t1 = t2 \/ exists i b m, cf_t cf t2 = Busy (Call i BytesRemaining) m /\ h_b (cf_h cf) !! i = Some (BSeeker b) /\ sb_common b = Some c.
Proof.
  intros H A1 A2 Hw Hu. destruct (shared_access _ _ _ _ _ _ c H A1 ltac:(auto)) as [H1|[H1 _]]; [|by destruct a1].
  destruct (shared_access _ _ _ _ _ _ c H A2 Hu) as [H2|(_ & i & b & m & H2 & H3 & H4 & _)]; [left; congruence|right; eauto 10].
Qed.
End Main.
