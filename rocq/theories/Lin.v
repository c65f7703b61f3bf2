(** * Calls on the copies of one Body take effect at one instant (proofs) *)
From Coq Require Import ZifyBool.
From Verif Require Import Wf.
From Verif Require Export ConcMain.

(** ** The rest of a call that needs nothing more *)

(** What such a rest stores last and how it ends. *)
Fixpoint tailp {A} (m : prog A) : option bobj * out A :=
  match m with
  | Ret a => (None, ORet a)
  | Panic e => (None, OPanic e)
  | Spin => (None, OSpin)
  | Do a k =>
      match a in act X return (X -> option bobj * out A) -> option bobj * out A with
      | Unlock _ => fun r => r tt
      | StoreB _ b => fun r => (Some (default b (r tt).1), (r tt).2)
      | _ => fun _ => (None, OSpin)
      end (fun x => tailp (k x))
  end.

Section Lin.
Context {W : Type} (E : env W) (fuel : nat).
Implicit Types h hs H : heap W.
Implicit Types cf : conf W.
Notation run := (run E).
Local Arguments cmd_prog : simpl never.

Definition put (i : nat) (o : option bobj) h : heap W :=
  match o with Some b => set_b h (<[i := b]> (h_b h)) | None => h end.

Lemma heap_eq h h' : h_b h = h_b h' -> h_c h = h_c h' -> h_w h = h_w h' -> h_log h = h_log h' -> h = h'.
Proof. destruct h, h'. cbn. congruence. Qed.

Lemma tail_run P (m : prog res) : forall s i H, keeps P s m (stops P) -> is_Some (h_b H !! i) ->
  (s = PF None \/ exists d, s = PF d \/ (exists b out, s = PD i b out d) \/ exists b c, s = PX (Some (i, b)) c d) ->
  run H m = (put i (tailp m).1 H, (tailp m).2) /\ (tailp m).2 <> OSpin.
Proof.
  induction m as [r|e| |X a k IH]; intros s i H Hk Hi Hs; cbn.
  - done.
  - done.
  - exfalso. destruct Hs as [->|(d & [->|[(b & out & ->)|(b & c & ->)]])]; done.
  - destruct Hk as (Hok & _ & Hk).
    destruct Hs as [->|(d & [->|[(b & out & ->)|(b & c & ->)]])]; cbn in Hok; try done; destruct a; try done; cbn.
    + destruct l; [|done]. subst. apply (IH tt (PF d)); [by apply Hk|done|]. right. exists d. by left.
    + destruct Hok as (-> & _). destruct Hi as [b1 Hb1]. rewrite Hb1.
      destruct (IH tt (PD i b out d) i (set_b H (<[i:=b0]> (h_b H)))) as [H1 H2]; [by apply Hk| |right; exists d; eauto|].
      { cbn. rewrite list_lookup_insert by (by eapply lookup_lt_Some). eauto. }
      split; [|done]. rewrite H1. f_equal. destruct (tailp (k tt)).1; [|done]. cbn. unfold set_b. cbn. by rewrite list_insert_insert.
    + destruct l; [done|]. subst. apply (IH tt (released (Some (i, b)) None d)); [by apply Hk|done|]. right. exists d. cbn. eauto.
Qed.

Lemma tail_PF P (m : prog res) d : keeps P (PF d) m (stops P) -> (tailp m).1 = None.
Proof. destruct m as [r|e| |X a k]; try done. by intros (Hok & _). Qed.
Lemma tail_clean P (m : prog res) : forall s i b out d, keeps P s m (stops P) -> s = PD i b out d \/ (exists c, s = PX (Some (i, b)) c d /\ out = false) ->
  (kind_of b = KBuffered /\ out = false) \/ p_br P = true -> (tailp m).1 = None.
Proof.
  induction m as [r|e| |X a k IH]; intros s i b out d Hk Hs Hc; try done. destruct Hk as (Hok & _ & Hk).
  destruct Hs as [->|(c & -> & ->)]; cbn in Hok; destruct a; try done; cbn.
  - destruct l; [|done]. subst. eapply tail_PF. by apply Hk.
  - exfalso. destruct Hok as (_ & _ & _ & H1 & _ & H2). destruct Hc as [[H3 H4]|Hc]; [|congruence]. specialize (H1 H3). congruence.
  - destruct l; [done|]. subst. eapply (IH tt); [by apply Hk|by left|done].
Qed.
Lemma tail_kind P (m : prog res) : forall s i b d b', keeps P s m (stops P) -> (exists out, s = PD i b out d) \/ (exists c, s = PX (Some (i, b)) c d) ->
  (tailp m).1 = Some b' -> kind_of b' = kind_of b.
Proof.
  induction m as [r|e| |X a k IH]; intros s i b d b' Hk Hs; try done. destruct Hk as (Hok & _ & Hk).
  destruct Hs as [(out & ->)|(c & ->)]; cbn in Hok; destruct a; try done; cbn.
  - destruct l; [|done]. subst. by rewrite (tail_PF P (k tt) d) by (by apply Hk).
  - intros [= <-]. destruct Hok as (_ & Hkd & _). destruct (tailp (k tt)).1 as [b2|] eqn:Ht; [|done]. cbn. eapply (IH tt); [by apply Hk|by eauto|done].
  - destruct l; [done|]. subst. intros Ht. eapply (IH tt); [by apply Hk| |done]. left. by eexists.
Qed.

(** ** The Bodies concerned: copies of one Body *)
Context (md : option nat).
Definition okfam (b : bobj) : Prop :=
  match md with
  | None => match kind_of b with KClosed | KEmpty | KBytes => True | _ => False end
  | Some c => private (kind_of b) = false /\ (body_common b = None \/ body_common b = Some c)
  end.
Lemma okfam_like b b' : kind_of b' = kind_of b -> body_common b' = None \/ body_common b' = body_common b -> okfam b -> okfam b'.
Proof. unfold okfam. intros Hk Hc. destruct md; rewrite Hk; [|done]. intros [H1 H2]. split; [done|]. destruct Hc as [->| ->]; auto. Qed.
Lemma okfam_common b c : okfam b -> body_common b = Some c -> md = Some c.
Proof. unfold okfam. intros H Hc. destruct md as [c'|]; [|by destruct b]. destruct H as [_ [?|?]]; congruence. Qed.
Lemma okfam_private b : okfam b -> private (kind_of b) = true -> md = None.
Proof. unfold okfam. destruct md; [|done]. intros [? _]. congruence. Qed.

(** ** The heap as the goroutine inside common.mu sees it

    [hs] is the heap after the calls that have taken effect. *)
Definition view h hs (i : nat) : heap W :=
  {| h_b := match h_b h !! i with Some b => <[i := b]> (h_b hs) | None => h_b hs end ++ drop (length (h_b hs)) (h_b h);
     h_c := h_c h; h_w := h_w h; h_log := h_log h |}.
Lemma view_lookup h hs i j : (length (h_b hs) <= length (h_b h))%nat -> (i < length (h_b hs))%nat ->
  h_b (view h hs i) !! j = if decide (j = i \/ (length (h_b hs) <= j)%nat) then h_b h !! j else h_b hs !! j.
Proof.
  intros Hl Hi. cbn. destruct (lookup_lt_is_Some_2 (h_b h) i ltac:(lia)) as [b Hb]. rewrite Hb.
  destruct (decide (length (h_b hs) <= j)%nat) as [Hj|Hj].
  - rewrite decide_True by auto. rewrite lookup_app_r by (by rewrite insert_length). rewrite insert_length, lookup_drop. f_equal. lia.
  - rewrite lookup_app_l by (rewrite insert_length; lia). destruct (decide (j = i)) as [->|Hne].
    + rewrite decide_True by auto. by rewrite list_lookup_insert.
    + rewrite decide_False by tauto. by rewrite list_lookup_insert_ne.
Qed.
Lemma view_length h hs i : (length (h_b hs) <= length (h_b h))%nat -> length (h_b (view h hs i)) = length (h_b h).
Proof. intros Hl. cbn. rewrite app_length, drop_length. destruct (h_b h !! i); rewrite ?insert_length; lia. Qed.
Lemma view_eq h hs i H : (length (h_b hs) <= length (h_b h))%nat -> (i < length (h_b hs))%nat ->
  h_c H = h_c h -> h_w H = h_w h -> h_log H = h_log h ->
  (forall j, h_b H !! j = if decide (j = i \/ (length (h_b hs) <= j)%nat) then h_b h !! j else h_b hs !! j) -> H = view h hs i.
Proof. intros H1 H2 H3 H4 H5 H6. apply heap_eq; [|done..]. apply list_eq. intros j. by rewrite view_lookup, H6. Qed.

Lemma view_step h h' hs i P b c d cur rs X (a : act X) x : (length (h_b hs) <= length (h_b h))%nat -> (i < length (h_b hs))%nat ->
  ok P (PC (Some (i, b)) c d cur rs) a -> act_step E h a = Some (h', x) ->
  (forall j, j = i \/ (length (h_b hs) <= j)%nat \/ (exists y, cur = Some y /\ j ∈ bodies_of y) -> h_b (view h hs i) !! j = h_b h !! j) ->
  (forall j k, d = Some (j, k) -> (length (h_b hs) <= j)%nat) ->
  act_step E (view h hs i) a = Some (view h' hs i, x).
Proof.
  intros Hlen Hi Hok Ha Hj Hd. destruct a; cbn in Hok; try done; unfold act_step in *.
  all: try (injection Ha as <- <-; done).
  - rewrite Hj.
    { destruct (h_b h !! i0); [|done]. by injection Ha as <- <-. }
    destruct Hok as [Hok|[Hok|Hok]]; [| |auto].
    + cbn in Hok. apply elem_of_list_singleton in Hok. auto.
    + destruct d as [[j k]|]; cbn in Hok; [|by apply elem_of_nil in Hok]. apply elem_of_list_singleton in Hok as ->. right. left. by eapply Hd.
  - destruct Hok as (b9 & [= <- <-] & _). rewrite Hj by auto. destruct (h_b h !! i) eqn:Hb; [|done]. injection Ha as <- <-. do 2 f_equal.
    apply view_eq; cbn -[view]; [by rewrite insert_length|done..|]. intros j. destruct (decide (j = i)) as [->|Hne].
    + rewrite decide_True by auto. rewrite !list_lookup_insert; [done|by eapply lookup_lt_Some|]. rewrite view_length by done. by eapply lookup_lt_Some.
    + rewrite !list_lookup_insert_ne by done. by rewrite view_lookup.
  - cbn. destruct (h_c h !! c0); [|done]. by injection Ha as <- <-.
  - cbn. destruct (h_c h !! c0); [|done]. by injection Ha as <- <-.
  - cbn. destruct (ev_read _ _ _ _) as [? [[? ?] ?]]. by injection Ha as <- <-.
  - cbn. destruct (ev_readat _ _ _ _ _) as [? [[? ?] ?]]. by injection Ha as <- <-.
  - cbn. destruct (ev_seek _ _ _ _ _) as [? [? ?]]. by injection Ha as <- <-.
  - cbn. destruct (ev_close _ _ _) as [? ?]. by injection Ha as <- <-.
Qed.

(** ** The relation between the interleaved and the sequential execution *)
Definition fits hs (i : nat) (m : prog res) h : Prop := h_b hs !! i = (fun b => default b (tailp m).1) <$> h_b h !! i.
Definition dlt hs (d : option (nat * kind)) : Prop := forall j k, d = Some (j, k) -> (j < length (h_b hs))%nat.
Definition rel h hs (s : ph) (c : cmd) (m : prog res) (l : lstate) : Prop :=
  let M := cmd_prog fuel hs c in
  match s with
  | P0 => l = LCalled c /\ m = M
  | PA i => l = LCalled c /\ (forall H, run H M = run H m) /\ h_b hs !! i = h_b h !! i
  | PB i b => okfam b /\ l = LCalled c /\ (forall H, h_b H !! i = Some b -> run H M = run H m) /\ h_b hs !! i = h_b h !! i
  | PE i b b' => okfam b /\ l = LCalled c /\ (forall H, h_b H !! i = Some b -> run H M = run (put i (Some b') H) m) /\ h_b hs !! i = Some b
  | PC (Some (i, b)) c' d _ _ => md = Some c' /\ okfam b /\ l = LCalled c /\ run hs M = run (view h hs i) m /\
      match d with None => length (h_b h) = length (h_b hs) | Some (j, _) => j = length (h_b hs) /\ length (h_b h) = S (length (h_b hs)) end
  | PX (Some (i, b)) c' d => md = Some c' /\ okfam b /\ l = LDone (tailp m).2 /\ fits hs i m h /\ dlt hs d
  | PD i b _ d => okfam b /\ l = LDone (tailp m).2 /\ fits hs i m h /\ dlt hs d
  | PF d => l = LDone (tailp m).2 /\ dlt hs d
  | _ => False
  end.
Definition trel h hs (s : ph) (x : tstate) (l : lstate) : Prop :=
  match x with
  | Idle => l = LIdle
  | Busy (Call i f) m => rel h hs s (Call i f) m l
  | Busy _ _ => False
  end.
Definition inC (s : ph) : bool := match s with PC _ _ _ _ _ => true | _ => false end.
Definition fam h (i : nat) : Prop := exists b, h_b h !! i = Some b /\ okfam b.
Record same_rest h hs : Prop := { sr_c : h_c h = h_c hs; sr_w : h_w h = h_w hs; sr_log : h_log h = h_log hs; sr_len : length (h_b h) = length (h_b hs) }.

Record lrel cf (S : tid -> ph) hs (ls : tid -> lstate) : Prop := {
  lr_b : binv cf S;
  lr_f : finv cf S;
  lr_thr : forall t, trel (cf_h cf) hs (S t) (cf_t cf t) (ls t);
  lr_le : (length (h_b hs) <= length (h_b (cf_h cf)))%nat;
  lr_kind : forall i, (i < length (h_b hs))%nat -> kind_of <$> h_b hs !! i = kind_of <$> h_b (cf_h cf) !! i;
  lr_dom : forall i, i ∈ cf_k cf -> (i < length (h_b hs))%nat;
  lr_fam : forall i, i ∈ cf_k cf \/ (exists t, fr (S t) = Some i) -> fam (cf_h cf) i;
  lr_free : forall i, (i < length (h_b hs))%nat -> (forall t, MuB i ∉ holds (S t)) -> h_b hs !! i = h_b (cf_h cf) !! i;
  lr_rest : (forall t, inC (S t) = false) -> same_rest (cf_h cf) hs;
  lr_klen : klen <$> h_c (cf_h cf) = klen <$> h_c hs
}.

Lemma method_kind b b' i f : kind_of b = kind_of b' -> method fuel b i f = method fuel b' i f.
Proof. by destruct b, b'. Qed.
Lemma prog_kind h h' i f : kind_of <$> h_b h !! i = kind_of <$> h_b h' !! i -> cmd_prog fuel h (Call i f) = cmd_prog fuel h' (Call i f).
Proof. unfold cmd_prog. destruct (h_b h !! i), (h_b h' !! i); cbn; try done. intros [= Hk]. by apply method_kind. Qed.

(** *** Other goroutines are not disturbed *)
Lemma rel_stable h hs h' hs' S0 s i f m l : evolves h h' S0 -> (length (h_b hs) <= length (h_b h))%nat ->
  (forall j, MuB j ∈ holds s -> (j < length (h_b hs))%nat /\ MuB j ∉ holds S0) ->
  (forall j, (length (h_b hs) <= j)%nat -> MuB j ∉ holds S0) ->
  (forall j, (j < length (h_b hs))%nat -> MuB j ∉ holds S0 -> h_b hs' !! j = h_b hs !! j) ->
  (length (h_b hs) <= length (h_b hs'))%nat -> kind_of <$> h_b hs' !! i = kind_of <$> h_b hs !! i ->
  (inC s = true -> hs' = hs /\ h_c h' = h_c h /\ h_w h' = h_w h /\ h_log h' = h_log h /\ length (h_b h') = length (h_b h)) ->
  rel h hs s (Call i f) m l -> rel h' hs' s (Call i f) m l.
Proof.
  intros Hev Hle Hheld Hbig Hoth Hgrow Hk Hpc.
  pose proof (prog_kind _ _ _ f Hk) as HM.
  assert (Hs : forall j, MuB j ∈ holds s -> h_b hs' !! j = h_b hs !! j /\ h_b h' !! j = h_b h !! j).
  { intros j Hj. destruct (Hheld j Hj) as [H1 H2]. split; [by apply Hoth|]. destruct (lookup_lt_is_Some_2 (h_b h) j ltac:(lia)) as [b Hb]. rewrite Hb. by eapply ev_b. }
  assert (Hd : forall d, dlt hs d -> dlt hs' d) by (intros d Hd j k Hj; specialize (Hd j k Hj); lia).
  unfold rel. cbv zeta. rewrite HM.
  destruct s as [| | |i' |i' b|i' b j|i' b b'|[[i' b]|] c d cur rs|[[i' b]|] c d|i' b out d|d]; try done; intros HR.
  - destruct (Hs i') as [-> ->]; [cbn; set_solver|]. done.
  - destruct (Hs i') as [-> ->]; [cbn; set_solver|]. done.
  - destruct (Hs i') as [-> _]; [cbn; set_solver|]. done.
  - destruct (Hpc eq_refl) as (-> & H2 & H3 & H4 & H5). rewrite H5. destruct HR as (R1 & R2 & R3 & R4 & R5).
    split; [done|]. split; [done|]. split; [done|]. split; [|done]. rewrite R4. f_equal.
    destruct (Hheld i') as [Hi _]; [cbn; set_solver|].
    apply view_eq; [lia|done|done..|]. intros j. rewrite view_lookup by done. destruct (decide _) as [Hj|]; [|done].
    destruct Hj as [->|Hj]; [by destruct (Hs i') as [_ ->]; [cbn; set_solver|]|].
    destruct (h_b h !! j) as [bj|] eqn:Hbj; [symmetry; eapply ev_b; eauto|]. symmetry. apply lookup_ge_None. apply lookup_ge_None in Hbj. lia.
  - unfold fits in *. destruct (Hs i') as [-> ->]; [cbn; set_solver|]. destruct HR as (R1 & R2 & R3 & R4 & R5). eauto 10.
  - unfold fits in *. destruct (Hs i') as [-> ->]; [cbn; set_solver|]. destruct HR as (R2 & R3 & R4 & R5). eauto 10.
  - destruct HR. eauto.
Qed.

Lemma lrel_step h L T K S hs ls t i f m m' s' h' L' hs' l' : lrel (Conf h L T K) S hs ls -> T t = Busy (Call i f) m ->
  binv (Conf h' L' (<[t := Busy (Call i f) m']> T) K) (<[t := s']> S) ->
  finv (Conf h' L' (<[t := Busy (Call i f) m']> T) K) (<[t := s']> S) ->
  evolves h h' (S t) ->
  (forall j, (j < length (h_b hs))%nat -> MuB j ∉ holds (S t) -> h_b hs' !! j = h_b hs !! j) ->
  (forall j, (j < length (h_b hs'))%nat -> (length (h_b hs) <= j)%nat \/ MuB j ∈ holds (S t) -> MuB j ∉ holds s' -> h_b hs' !! j = h_b h' !! j) ->
  (length (h_b hs) <= length (h_b hs'))%nat -> (length (h_b hs') <= length (h_b h'))%nat ->
  (forall j, (j < length (h_b hs'))%nat -> kind_of <$> h_b hs' !! j = kind_of <$> h_b h' !! j) ->
  (forall t', t' <> t -> inC (S t') = true -> hs' = hs /\ h_c h' = h_c h /\ h_w h' = h_w h /\ h_log h' = h_log h /\ length (h_b h') = length (h_b h)) ->
  ((forall t', inC (<[t := s']> S t') = false) -> same_rest h' hs') ->
  klen <$> h_c h' = klen <$> h_c hs' ->
  rel h' hs' s' (Call i f) m' l' ->
  (forall j, fam h j -> fam h' j) -> (forall j, fr s' = Some j -> fr (S t) = Some j \/ fam h' j) ->
  lrel (Conf h' L' (<[t := Busy (Call i f) m']> T) K) (<[t := s']> S) hs' (<[t := l']> ls).
Proof.
  intros HR HT HB' HF' Hev Hoth Hnew Hgrow Hle Hkind Hpc Hrest Hklen Hrel Hfam Hfr.
  destruct HR as [HB HF Hthr Hle0 Hkind0 Hdom Hfam0 Hfree Hrest0 Hklen0]. cbn in *.
  assert (Hbig : forall j, (length (h_b hs) <= j)%nat -> MuB j ∉ holds (S t)).
  { intros j Hj Hh. apply (fi_held _ _ HF) in Hh. apply Hdom in Hh. lia. }
  assert (Hsame : forall j, (j < length (h_b hs))%nat -> kind_of <$> h_b hs' !! j = kind_of <$> h_b hs !! j).
  { intros j Hj. rewrite Hkind, Hkind0 by lia. destruct (lookup_lt_is_Some_2 (h_b h) j ltac:(lia)) as [b Hb].
    destruct (ev_kind _ _ _ Hev j b Hb) as (b' & H1 & H2). rewrite H1, Hb. cbn. by rewrite H2. }
  split; cbn; try done.
  - intros t'. destruct (decide (t = t')) as [<-|Hne]; [by rewrite !fn_lookup_insert|]. rewrite !fn_lookup_insert_ne by done.
    specialize (Hthr t'). destruct (T t') as [|[]] eqn:HT'; try done. cbn in *.
    eapply (rel_stable h hs h' hs' (S t)); try done.
    + intros j Hj. split; [apply Hdom; by eapply (fi_held _ _ HF)|]. intros Hj'. apply Hne. apply (bi_lock _ _ HB) in Hj, Hj'. cbn in *. congruence.
    + apply Hsame, Hdom. eapply (fi_uses _ _ HF); [exact HT'|]. cbn. set_solver.
    + intros Hc. by apply (Hpc t').
  - intros j Hj. specialize (Hdom j Hj). lia.
  - intros j [Hj|(t' & Hj)]; [by apply Hfam, Hfam0; left|].
    destruct (decide (t = t')) as [<-|Hne]; [rewrite fn_lookup_insert in Hj|rewrite fn_lookup_insert_ne in Hj by done]; [|apply Hfam, Hfam0; eauto].
    destruct (Hfr _ Hj); [apply Hfam, Hfam0; eauto|done].
  - intros j Hj Hn. assert (Hs' : MuB j ∉ holds s') by (specialize (Hn t); by rewrite fn_lookup_insert in Hn).
    destruct (decide (length (h_b hs) <= j)%nat) as [?|Hlt]; [by apply Hnew; auto|].
    destruct (decide (MuB j ∈ holds (S t))) as [?|Hh]; [by apply Hnew; auto|].
    rewrite Hoth, Hfree; [|lia| |lia|done].
    + destruct (lookup_lt_is_Some_2 (h_b h) j ltac:(lia)) as [b Hb]. rewrite Hb. symmetry. by eapply ev_b.
    + intros t'. destruct (decide (t = t')) as [<-|Hne]; [done|]. specialize (Hn t'). by rewrite fn_lookup_insert_ne in Hn.
Qed.

(** A step that is not yet, or no longer, visible. *)
Lemma lrel_quiet h L T K S hs ls t i f m m' s' h' L' l' : lrel (Conf h L T K) S hs ls -> T t = Busy (Call i f) m ->
  binv (Conf h' L' (<[t := Busy (Call i f) m']> T) K) (<[t := s']> S) ->
  finv (Conf h' L' (<[t := Busy (Call i f) m']> T) K) (<[t := s']> S) ->
  evolves h h' (S t) ->
  (forall j, MuB j ∈ holds (S t) -> MuB j ∉ holds s' -> h_b hs !! j = h_b h' !! j) ->
  (forall t', t' <> t -> inC (S t') = true -> h_c h' = h_c h /\ h_w h' = h_w h /\ h_log h' = h_log h /\ length (h_b h') = length (h_b h)) ->
  ((forall t', inC (<[t := s']> S t') = false) -> same_rest h' hs) ->
  klen <$> h_c h' = klen <$> h_c h ->
  rel h' hs s' (Call i f) m' l' ->
  (forall j, fam h j -> fam h' j) -> (forall j, fr s' = Some j -> fr (S t) = Some j \/ fam h' j) ->
  lrel (Conf h' L' (<[t := Busy (Call i f) m']> T) K) (<[t := s']> S) hs (<[t := l']> ls).
Proof.
  intros HR HT HB' HF' Hev Hnew Hpc Hrest Hklen Hrel Hfam Hfr.
  assert (Hlen : (length (h_b h) <= length (h_b h'))%nat).
  { destruct (decide (length (h_b h) = 0%nat)) as [->|Hn]; [lia|]. destruct (lookup_lt_is_Some_2 (h_b h) (length (h_b h) - 1)%nat ltac:(lia)) as [b Hb].
    destruct (ev_kind _ _ _ Hev _ _ Hb) as (b' & Hb' & _). apply lookup_lt_Some in Hb'. lia. }
  pose proof (lr_le _ _ _ _ HR) as Hle. cbn in Hle.
  eapply (lrel_step h L T K S hs ls); try done.
  - intros j Hj [?|Hh]; [lia|]. by apply Hnew.
  - lia.
  - intros j Hj. rewrite (lr_kind _ _ _ _ HR) by done. cbn. destruct (lookup_lt_is_Some_2 (h_b h) j ltac:(lia)) as [b Hb].
    destruct (ev_kind _ _ _ Hev j b Hb) as (b' & H1 & H2). rewrite H1, Hb. cbn. by rewrite H2.
  - intros t' Hne Hc. split; [done|]. by apply (Hpc t').
  - rewrite Hklen. apply (lr_klen _ _ _ _ HR).
Qed.

Lemma lrel_ext h L T T' K S S' hs ls ls' : (forall t, T' t = T t) -> (forall t, S' t = S t) -> (forall t, ls' t = ls t) ->
  lrel (Conf h L T K) S hs ls -> lrel (Conf h L T' K) S' hs ls'.
Proof.
  intros HT HS Hl [H1 H2 H3 H4 H5 H6 H7 H8 H9 H10]. cbn in *. split; cbn; try done.
  - by eapply binv_ext.
  - by eapply finv_ext.
  - intros t. rewrite HT, HS, Hl. apply H3.
  - intros i [Hi|(t & Ht)]; [by apply H7; left|]. rewrite HS in Ht. eauto.
  - intros i Hi Hn. apply H8; [done|]. intros t. rewrite <- HS. apply Hn.
  - intros Hn. apply H9. intros t. rewrite <- HS. apply Hn.
Qed.

Definition phb (s : ph) : option bobj :=
  match s with PB _ b | PG _ b _ | PE _ b _ | PD _ b _ _ => Some b | PC o _ _ _ _ | PX o _ _ => snd <$> o | _ => None end.
Lemma fam_act h h' P s X (a : act X) x : ok P s a -> act_step E h a = Some (h', x) -> (forall b, phb s = Some b -> okfam b) -> forall j, fam h j -> fam h' j.
Proof.
  intros Hok Ha Hb j (bj & Hj & Hf).
  assert (Hsame : h_b h' = h_b h -> fam h' j) by (intros He; exists bj; by rewrite He).
  assert (Hstore : forall i b b', phb s = Some b -> kind_of b' = kind_of b -> body_common b' = None \/ body_common b' = body_common b -> fam (set_b h (<[i := b']> (h_b h))) j).
  { intros i b b' H1 H2 H3. unfold fam. cbn. destruct (decide (i = j)) as [->|Hne]; [|rewrite list_lookup_insert_ne by done; eauto].
    rewrite list_lookup_insert by (by eapply lookup_lt_Some). eexists. split; [done|]. eapply okfam_like; eauto. }
  destruct a; cbn in Ha;
  repeat match type of Ha with
  | context [let '(_, _) := ?e in _] => destruct e as [? ?]
  | match ?e with Some _ => _ | None => _ end = _ => destruct e eqn:?; [|done]
  end; injection Ha as <- <-; try (by apply Hsame).
  - destruct s; cbn in Hok; try done.
    + destruct Hok as (-> & ? & ? & _). eapply Hstore; cbn; eauto.
    + destruct Hok as (b9 & -> & ? & ? & _). eapply Hstore; cbn; eauto.
    + destruct Hok as (-> & ? & ? & _). eapply Hstore; cbn; eauto.
  - exists bj. cbn. split; [by apply lookup_app_l_Some|done].
Qed.
Lemma rel_okfam h hs s c m l : rel h hs s c m l -> forall b, phb s = Some b -> okfam b.
Proof. destruct s as [| | | | | | |[[]|]|[[]|]| |]; cbn; try done; intros Hr ? [= <-]; tauto. Qed.

Lemma pc_lock cf S hs ls t : lrel cf S hs ls -> inC (S t) = true -> exists c, md = Some c /\ cf_l cf (MuC c) = Some t.
Proof.
  intros HR Hc. pose proof (lr_thr _ _ _ _ HR t) as Ht. pose proof (bi_thr _ _ (lr_b _ _ _ _ HR) t) as Hb.
  destruct (S t) as [| | | | | | |o c d cur rs| | |] eqn:HS; try done. destruct (cf_t cf t) as [|[]]; try done. cbn in Ht. destruct o as [[j b]|]; [|done].
  exists c. split; [tauto|]. apply (bi_lock _ _ (lr_b _ _ _ _ HR)). rewrite HS. cbn. set_solver.
Qed.
Lemma pc_one cf S hs ls t t' c : lrel cf S hs ls -> md = Some c -> MuC c ∈ holds (S t) -> inC (S t') = true -> t' = t.
Proof.
  intros HR Hm Ht Hc. destruct (pc_lock _ _ _ _ _ HR Hc) as (c' & Hm' & Hl). apply (bi_lock _ _ (lr_b _ _ _ _ HR)) in Ht. congruence.
Qed.
Lemma pc_free cf S hs ls c : lrel cf S hs ls -> md = Some c -> cf_l cf (MuC c) = None -> forall t, inC (S t) = false.
Proof. intros HR Hm Hl t. destruct (inC (S t)) eqn:Hc; [|done]. destruct (pc_lock _ _ _ _ _ HR Hc) as (c' & Hm' & Hl'). congruence. Qed.
Lemma pc_none cf S hs ls : lrel cf S hs ls -> md = None -> forall t, inC (S t) = false.
Proof. intros HR Hm t. destruct (inC (S t)) eqn:Hc; [|done]. destruct (pc_lock _ _ _ _ _ HR Hc) as (c' & Hm' & Hl'). congruence. Qed.
Lemma rest_keep (S : tid -> ph) t s' : inC (S t) = false -> (forall t', inC (<[t := s']> S t') = false) -> forall t', inC (S t') = false.
Proof. intros H1 H2 t'. destruct (decide (t = t')) as [<-|Hne]; [done|]. specialize (H2 t'). by rewrite fn_lookup_insert_ne in H2. Qed.

(** Copies whose Bodies are read with common.mu only are as they were after the
    last call that took effect. *)
Lemma sibling cf S hs ls t i b c d x rs j : lrel cf S hs ls -> S t = PC (Some (i, b)) c d (Some x) rs -> j ∈ bodies_of x ->
  j = i \/ (length (h_b hs) <= j)%nat \/ h_b hs !! j = h_b (cf_h cf) !! j.
Proof.
  intros HR HS Hj. destruct (decide (length (h_b hs) <= j)%nat) as [?|Hlt]; [auto|]. destruct (decide (j = i)) as [?|Hne]; [auto|]. right. right.
  pose proof (lr_b _ _ _ _ HR) as HB. pose proof (lr_f _ _ _ _ HR) as HF.
  pose proof (so_d _ _ (bi_so _ _ HB t)) as Hd. rewrite HS in Hd. destruct Hd as (_ & _ & _ & Hc). specialize (Hc _ eq_refl).
  destruct (so_m _ _ (bi_so _ _ HB t) _ _ _ Hc Hj) as (bj & Hbj & Hkj).
  destruct (cf_l cf (MuB j)) as [t'|] eqn:Hl.
  2:{ apply (lr_free _ _ _ _ HR); [lia|]. intros t' Hh. apply (bi_lock _ _ HB) in Hh. congruence. }
  apply (bi_lock _ _ HB) in Hl. pose proof (lr_thr _ _ _ _ HR t') as Hr'. pose proof (bi_thr _ _ HB t') as Hb'. pose proof (so_d _ _ (bi_so _ _ HB t')) as Hd'.
  pose proof (fi_loc _ _ HF t') as Hl'.
  assert (Hmc : md = Some c -> forall c', md = Some c' -> MuC c' ∈ holds (S t') -> t' = t).
  { intros H1 c' H2 H3. assert (c' = c) as -> by congruence. assert (H4 : MuC c ∈ holds (S t)) by (rewrite HS; cbn; set_solver).
    apply (bi_lock _ _ HB) in H3, H4. congruence. }
  pose proof (lr_thr _ _ _ _ HR t) as Hr. rewrite HS in Hr. pose proof (bi_thr _ _ HB t) as Hb. rewrite HS in Hb.
  assert (Hmd : md = Some c) by (destruct (cf_t cf t) as [|[]]; try done; cbn in Hr; tauto).
  destruct (cf_t cf t') as [|[i' f'| | | | | | |] m'] eqn:HT'; try done; [by rewrite Hb', elem_of_nil in Hl|].
  cbn in Hr'. destruct (S t') as [| | | | | | |[[]|]|[[]|]| |] eqn:HS'; cbn in Hl; try done; try (by apply elem_of_nil in Hl); rewrite ?elem_of_cons, ?elem_of_nil in Hl.
  - destruct Hl as [[= ->]|]; [|done]. cbn in Hr'; tauto.
  - destruct Hl as [[= ->]|]; [|done]. cbn in Hr'; tauto.
  - destruct Hl as [[= ->]|]; [|done]. exfalso. cbn in Hl', Hd'. destruct Hd' as (H1 & H2 & _). congruence.
  - destruct Hl as [?|[[= ->]|?]]; [done| |done]. exfalso. assert (t' = t) as ->; [|congruence]. eapply Hmc; [done|apply Hr'|cbn; set_solver].
  - destruct Hl as [?|[[= ->]|?]]; [done| |done]. exfalso. assert (t' = t) as ->; [|congruence]. eapply Hmc; [done|apply Hr'|cbn; set_solver].
  - destruct Hl as [[= ->]|]; [|done]. destruct Hd' as [(b2 & Hb2 & Hk2) _]. cbn in Hl'. destruct out.
    + exfalso. eapply Hl'; [congruence|exact Hc|done].
    + destruct Hr' as (_ & _ & Hfit & _). unfold fits in Hfit. destruct Hb' as [Hkp _].
      rewrite (tail_clean _ _ _ i0 b0 false d0 Hkp) in Hfit; [|by left|left; split; [congruence|done]]. rewrite Hfit. by destruct (h_b (cf_h cf) !! i0).
Qed.

(** ** One action *)

(** Either nothing visible happens or the call takes effect. *)
Definition effect hs (ls : tid -> lstate) (t : tid) c hs' (ls' : tid -> lstate) : Prop :=
  (hs' = hs /\ forall t', ls' t' = ls t') \/
  (ls t = LCalled c /\ exists o, exec E fuel hs c = (hs', o) /\ o <> OSpin /\ ls' = <[t := LDone o]> ls).

Lemma put_lookup i o h j : (i < length (h_b h))%nat -> h_b (put i o h) !! j = if decide (j = i) then (fun b => default b o) <$> h_b h !! j else h_b h !! j.
Proof.
  intros Hi. destruct o as [b|]; cbn.
  - destruct (decide (j = i)) as [->|Hne]; [|by rewrite list_lookup_insert_ne]. rewrite list_lookup_insert by done.
    destruct (lookup_lt_is_Some_2 (h_b h) i Hi) as [b1 ->]. done.
  - destruct (decide (j = i)); [|done]. by destruct (h_b h !! j).
Qed.
Lemma put_length i o h : length (h_b (put i o h)) = length (h_b h).
Proof. destruct o; [|done]. cbn. by rewrite insert_length. Qed.
Lemma put_rest i o h : h_c (put i o h) = h_c h /\ h_w (put i o h) = h_w h /\ h_log (put i o h) = h_log h.
Proof. by destruct o. Qed.

(** Taking effect inside common.mu: the new sequential heap. *)
Lemma commit_view h hs i m : (length (h_b hs) <= length (h_b h))%nat -> (i < length (h_b hs))%nat ->
  let hs' := put i (tailp m).1 (view h hs i) in
  length (h_b hs') = length (h_b h) /\ h_c hs' = h_c h /\ h_w hs' = h_w h /\ h_log hs' = h_log h /\ fits hs' i m h /\
  (forall j, j <> i -> h_b hs' !! j = if decide (length (h_b hs) <= j)%nat then h_b h !! j else h_b hs !! j).
Proof.
  intros Hle Hi hs'. pose proof (view_length h hs i Hle) as Hvl. subst hs'. destruct (put_rest i (tailp m).1 (view h hs i)) as (H1 & H2 & H3).
  rewrite put_length, H1, H2, H3. split; [done|]. split; [done|]. split; [done|]. split; [done|]. split.
  - unfold fits. rewrite put_lookup by lia. rewrite decide_True by done. rewrite view_lookup by done. by rewrite decide_True by auto.
  - intros j Hne. rewrite put_lookup by lia. rewrite decide_False by done. rewrite view_lookup by done.
    destruct (decide (length (h_b hs) <= j)%nat); [by rewrite decide_True by auto|]. by rewrite decide_False by tauto.
Qed.

Definition done_ph (i : nat) (s : ph) : Prop :=
  match s with
  | PX (Some (i', b)) c _ => i' = i /\ md = Some c /\ okfam b
  | PD i' b _ _ => i' = i /\ okfam b
  | PF _ => True
  | _ => False
  end.
Lemma evolves_length h h' s : evolves h h' s -> (length (h_b h) <= length (h_b h'))%nat.
Proof.
  intros Hev. destruct (decide (length (h_b h) = 0%nat)) as [->|Hn]; [lia|]. destruct (lookup_lt_is_Some_2 (h_b h) (length (h_b h) - 1)%nat ltac:(lia)) as [b Hb].
  destruct (ev_kind _ _ _ Hev _ _ Hb) as (b' & Hb' & _). apply lookup_lt_Some in Hb'. lia.
Qed.

(** The call takes effect: the others see what it has done to the Bodies, the
    shared object and the world. *)
Lemma lin_commit h L T K S hs ls t i f m m' s' h' L' : lrel (Conf h L T K) S hs ls -> T t = Busy (Call i f) m ->
  binv (Conf h' L' (<[t := Busy (Call i f) m']> T) K) (<[t := s']> S) ->
  finv (Conf h' L' (<[t := Busy (Call i f) m']> T) K) (<[t := s']> S) ->
  evolves h h' (S t) -> ls t = LCalled (Call i f) ->
  run hs (cmd_prog fuel hs (Call i f)) = run (view h' hs i) m' ->
  (forall t', t' <> t -> inC (S t') = false) -> holds (S t) = [MuB i] \/ (exists c, holds (S t) = [MuC c; MuB i]) -> done_ph i s' ->
  (forall j, fam h j -> fam h' j) -> (forall j, fr s' = Some j -> fr (S t) = Some j \/ fam h' j) ->
  exists hs' ls', lrel (Conf h' L' (<[t := Busy (Call i f) m']> T) K) (<[t := s']> S) hs' ls' /\ effect hs ls t (Call i f) hs' ls'.
Proof.
  intros HR HT HB' HF' Hev HLt Hrun Hno Hholds Hdone Hfam Hfr.
  pose proof (evolves_length _ _ _ Hev) as Hlen. pose proof (lr_le _ _ _ _ HR) as Hle. cbn in Hle.
  assert (Hi : (i < length (h_b hs))%nat). { apply (lr_dom _ _ _ _ HR). cbn. eapply (fi_uses _ _ (lr_f _ _ _ _ HR)); [exact HT|]. cbn. set_solver. }
  assert (Hheld : MuB i ∈ holds (S t) /\ forall j, MuB j ∈ holds (S t) -> j = i).
  { destruct Hholds as [->|(c & ->)]; (split; [set_solver|]); intros j; rewrite ?elem_of_cons, ?elem_of_nil; naive_solver. }
  destruct Hheld as [Hheld1 Hheld].
  pose proof (bi_thr _ _ HB' t) as Htok. cbn in Htok. rewrite !fn_lookup_insert in Htok. destruct Htok as [Hk _].
  pose proof (so_d _ _ (bi_so _ _ HB' t)) as Hd. cbn in Hd. rewrite fn_lookup_insert in Hd.
  destruct (commit_view h' hs i m' ltac:(lia) Hi) as (V1 & V2 & V3 & V4 & V5 & V6).
  destruct (tail_run (par_of (Call i f)) m' s' i (view h' hs i) Hk) as [Ht1 Ht2].
  { rewrite view_lookup by lia. rewrite decide_True by auto. apply lookup_lt_is_Some_2. lia. }
  { destruct s' as [| | | | | | | |[[i1 b1]|] c1 d1|i1 b1 o1 d1|d1]; try done; cbn in Hdone; right; destruct_and?; subst; eauto 10. }
  set (hs' := put i (tailp m').1 (view h' hs i)) in *.
  assert (Hkd : forall b b', h_b h' !! i = Some b -> (tailp m').1 = Some b' -> kind_of b' = kind_of b).
  { intros b b' Hb Hb'. destruct s' as [| | | | | | | |[[i1 b1]|] c1 d1|i1 b1 o1 d1|d1]; try done; cbn in Hdone; destruct_and?; subst.
    - destruct Hd as [_ Hd]. destruct (Hd _ _ eq_refl) as [(b2 & Hb2 & Hk2) _]. rewrite (tail_kind _ _ _ i b1 d1 b' Hk); [congruence|eauto|done].
    - destruct Hd as [(b2 & Hb2 & Hk2) _]. rewrite (tail_kind _ _ _ i b1 d1 b' Hk); [congruence|eauto|done].
    - by rewrite (tail_PF _ _ _ Hk) in Hb'. }
  exists hs', (<[t := LDone (tailp m').2]> ls). split.
  2:{ right. split; [done|]. exists (tailp m').2. split; [unfold exec; by rewrite Hrun, Ht1|]. split; done. }
  eapply lrel_step; try done.
  - intros j Hj Hn. rewrite V6 by (by intros ->). by rewrite decide_False by lia.
  - intros j Hj Hor Hn. destruct (decide (j = i)) as [->|Hne].
    + destruct s' as [| | | | | | | |[[i1 b1]|] c1 d1|i1 b1 o1 d1|d1]; try done; cbn in Hdone; destruct_and?; subst; try (exfalso; apply Hn; cbn; rewrite ?elem_of_cons; tauto).
      unfold fits in V5. rewrite V5, (tail_PF _ _ _ Hk). by destruct (h_b h' !! i).
    + rewrite V6 by done. destruct Hor as [?|Hh]; [by rewrite decide_True by done|]. by apply Hheld in Hh.
  - lia.
  - lia.
  - intros j Hj. destruct (decide (j = i)) as [->|Hne].
    + unfold fits in V5. rewrite V5. destruct (h_b h' !! i) as [b|] eqn:Hb; [|done]. cbn. f_equal. destruct (tailp m').1 eqn:Htp; [|done]. cbn. by eapply Hkd.
    + rewrite V6 by done. destruct (decide _) as [?|Hlt]; [done|]. rewrite (lr_kind _ _ _ _ HR) by lia. cbn.
      destruct (lookup_lt_is_Some_2 (h_b h) j ltac:(lia)) as [b Hb]. destruct (ev_kind _ _ _ Hev j b Hb) as (b' & H1 & H2). rewrite H1, Hb. cbn. by rewrite H2.
  - intros t' Hne Hc. by rewrite Hno in Hc.
  - by rewrite V2.
  - assert (Hdl : forall d, fr s' = fst <$> d -> dlt hs' d).
    { intros d Hd' j k ->. rewrite V1. cbn in Hd'. destruct (fi_made _ _ HF' t j) as [b Hb]; [by rewrite fn_lookup_insert|]. cbn in Hb. by eapply lookup_lt_Some. }
    destruct s' as [| | | | | | | |[[i1 b1]|] c1 d1|i1 b1 o1 d1|d1]; try done; cbn in Hdone; destruct_and?; subst; cbn; eauto 10.
Qed.

Lemma lin_act h L T K S hs ls t i f X (a : act X) k L' h' x : lrel (Conf h L T K) S hs ls -> T t = Busy (Call i f) (Do a k) ->
  lock_step L t a = Some L' -> act_step E h a = Some (h', x) -> alloc_step E h a = None ->
  exists hs' ls', lrel (Conf h' L' (<[t := Busy (Call i f) (k x)]> T) K) (<[t := nx (S t) a x]> S) hs' ls' /\ effect hs ls t (Call i f) hs' ls'.
Proof.
  intros HR HT HL Ha Hna.
  pose proof (lr_b _ _ _ _ HR) as HB. pose proof (lr_f _ _ _ _ HR) as HF.
  pose proof (fine_step E _ _ _ _ _ _ _ _ _ _ _ _ _ HB HT HL Ha) as HB'.
  pose proof (fine_step_f E _ _ _ _ _ _ _ _ _ _ _ _ _ HB HF HT HL Ha) as HF'.
  pose proof (bi_thr _ _ HB t) as Htok. cbn in Htok. rewrite HT in Htok.
  pose proof Htok as [(Hok & Hext & Hk) [_ Hheld]]. destruct (tok_busy _ _ _ _ _ _ Htok) as (_ & _ & Hhd).
  destruct (act_sound E h h' _ (S t) X a x (bi_so _ _ HB t) Hok Ha Hhd) as (Hrok & Hev & Hso').
  pose proof (so_d _ _ (bi_so _ _ HB t)) as Hd. cbn in Hd.
  pose proof (lr_thr _ _ _ _ HR t) as Hrel. cbn in Hrel. rewrite HT in Hrel. cbn [trel] in Hrel.
  pose proof (lr_le _ _ _ _ HR) as Hle. pose proof (lr_dom _ _ _ _ HR) as Hdom. cbn in Hle, Hdom.
  assert (Hi : i ∈ K). { eapply (fi_uses _ _ HF); [exact HT|]. cbn. set_solver. }
  assert (Hheld' : forall j, MuB j ∈ holds (S t) -> j = i). { intros j Hj. specialize (Hheld j Hj). cbn in Hheld. by injection Hheld. }
  pose proof (fam_act _ _ _ _ _ _ _ Hok Ha (rel_okfam _ _ _ _ _ _ Hrel)) as Hfam.
  specialize (Hk x Hrok).
  assert (Hsil : forall l', l' = ls t ->
    (forall j, MuB j ∈ holds (S t) -> MuB j ∉ holds (nx (S t) a x) -> h_b hs !! j = h_b h' !! j) ->
    (forall t', t' <> t -> inC (S t') = true -> h_c h' = h_c h /\ h_w h' = h_w h /\ h_log h' = h_log h /\ length (h_b h') = length (h_b h)) ->
    ((forall t', inC (<[t := nx (S t) a x]> S t') = false) -> same_rest h' hs) ->
    klen <$> h_c h' = klen <$> h_c h ->
    rel h' hs (nx (S t) a x) (Call i f) (k x) l' ->
    (forall j, fr (nx (S t) a x) = Some j -> fr (S t) = Some j \/ fam h' j) ->
    exists hs' ls', lrel (Conf h' L' (<[t := Busy (Call i f) (k x)]> T) K) (<[t := nx (S t) a x]> S) hs' ls' /\ effect hs ls t (Call i f) hs' ls').
  { intros l' -> H1 H2 H3 H4 H5 H6. exists hs, (<[t := ls t]> ls). split; [by eapply lrel_quiet|]. left. split; [done|]. by apply upd_same. }
  assert (Hcom : ls t = LCalled (Call i f) -> run hs (cmd_prog fuel hs (Call i f)) = (hs, (tailp (k x)).2) -> (tailp (k x)).2 <> OSpin ->
    (forall j, MuB j ∈ holds (S t) -> MuB j ∉ holds (nx (S t) a x) -> h_b hs !! j = h_b h' !! j) ->
    (forall t', t' <> t -> inC (S t') = true -> h_c h' = h_c h /\ h_w h' = h_w h /\ h_log h' = h_log h /\ length (h_b h') = length (h_b h)) ->
    ((forall t', inC (<[t := nx (S t) a x]> S t') = false) -> same_rest h' hs) ->
    klen <$> h_c h' = klen <$> h_c h ->
    rel h' hs (nx (S t) a x) (Call i f) (k x) (LDone (tailp (k x)).2) ->
    (forall j, fr (nx (S t) a x) = Some j -> fr (S t) = Some j \/ fam h' j) ->
    exists hs' ls', lrel (Conf h' L' (<[t := Busy (Call i f) (k x)]> T) K) (<[t := nx (S t) a x]> S) hs' ls' /\ effect hs ls t (Call i f) hs' ls').
  { intros C1 C2 C3 H1 H2 H3 H4 H5 H6. exists hs, (<[t := LDone (tailp (k x)).2]> ls). split; [by eapply lrel_quiet|].
    right. split; [done|]. eexists. split; [exact C2|]. done. }
  assert (Hnx : forall j, fr (nx (S t) a x) = Some j -> fr (S t) = Some j).
  { intros j Hj. destruct (fr_nx _ _ _ _ _ _ Hok Hj) as [?|[_ Hn]]; [done|]. by destruct a. }
  destruct (S t) as [|c0 x0|c0 x0 j0 b0|i0|i0 b|i0 b j0|i0 b b'|[[i0 b]|] c0 d cur rs|[[i0 b]|] c0 d|i0 b out d|d] eqn:HS; try done.
  - (* P0 *) destruct a; cbn in Hok; try done. destruct l as [i1|]; [|done]. cbn in Ha. injection Ha as <- <-.
    injection Hok as <-. destruct Hrel as [R1 R2]. eapply Hsil; [done|cbn; set_solver|done| |done| |auto].
    + intros Hn. apply (lr_rest _ _ _ _ HR). eapply rest_keep; [|exact Hn]. by rewrite HS.
    + cbn. split; [done|]. split; [by rewrite <- R2|]. cbn in HL. destruct (L (MuB i)) eqn:Hl; [done|].
      apply (lr_free _ _ _ _ HR); [by apply Hdom|]. intros t' Ht'. apply (bi_lock _ _ HB) in Ht'. cbn in Ht'. congruence.
  - (* PA *) destruct a; cbn in Hok; try done. subst i1. cbn in Ha. destruct (h_b h !! i0) as [b|] eqn:Hb; [|done]. injection Ha as <- <-.
    destruct Hrel as (R1 & R2 & R3). assert (i0 = i) as -> by (apply Hheld'; cbn; set_solver).
    eapply Hsil; [done|cbn; set_solver|done| |done| |auto].
    + intros Hn. apply (lr_rest _ _ _ _ HR). eapply rest_keep; [|exact Hn]. by rewrite HS.
    + cbn. split; [|split; [done|]; split; [|by rewrite R3, Hb]].
      * destruct (lr_fam _ _ _ _ HR i) as (b2 & Hb2 & Hf2); [by left|]. cbn in Hb2. congruence.
      * intros H HH. rewrite R2. cbn. by rewrite HH.
  - (* PB *) assert (i0 = i) as -> by (apply Hheld'; cbn; set_solver). destruct Hrel as (R0 & R1 & R2 & R3). destruct Hd as [Hd1 Hd2].
    rewrite Hd1 in R3. pose proof (R2 hs R3) as R4.
    destruct a; cbn in Hok; try done.
    + (* Lock *) destruct l as [|c]; [done|]. cbn in Ha. injection Ha as <- <-. pose proof (okfam_common _ _ R0 Hok) as Hmd.
      assert (Hno : forall t', inC (S t') = false).
      { eapply pc_free; [exact HR|done|]. cbn in HL |- *. by destruct (L (MuC c)). }
      destruct (lr_rest _ _ _ _ HR Hno) as [Q1 Q2 Q3 Q4]. cbn in Q1, Q2, Q3, Q4.
      eapply Hsil; [done|cbn; set_solver|done| |done| |auto].
      * intros Hn. specialize (Hn t). by rewrite fn_lookup_insert in Hn.
      * cbn. split; [done|]. split; [done|]. split; [done|]. split; [|done]. rewrite R4. cbn. f_equal.
        apply view_eq; [done|by apply Hdom|done..|]. intros j. destruct (decide _) as [[->|Hj]|]; [by rewrite R3, Hd1| |done].
        rewrite !lookup_ge_None_2; [done|lia|lia].
    + (* Unlock *) destruct l as [j|]; [|done]. subst j. cbn in Ha. injection Ha as <- <-. cbn [nx] in *.
      destruct (tail_run _ (k tt) _ i hs Hk) as [Ht1 Ht2]; [eauto|by left|]. rewrite (tail_PF _ _ _ Hk) in Ht1.
      apply Hcom; [done|by rewrite R4|done| |done| |done|by split|done].
      * intros j Hj _. rewrite (Hheld' j Hj). congruence.
      * intros Hn. apply (lr_rest _ _ _ _ HR). eapply rest_keep; [|exact Hn]. by rewrite HS.
    + (* StoreB *) destruct Hok as (-> & Hkb & Hcb & Hnb & Hw). cbn in Ha. rewrite Hd1 in Ha. injection Ha as <- <-. cbn [nx] in *.
      destruct (private (kind_of b)) eqn:Hp.
      * pose proof (pc_none _ _ _ _ HR (okfam_private _ R0 Hp)) as Hno. destruct (lr_rest _ _ _ _ HR Hno) as [Q1 Q2 Q3 Q4]. cbn in Q1, Q2, Q3, Q4.
        eapply lin_commit; try done; rewrite ?HS; try done; [|by left].
        rewrite R4. cbn. rewrite R3. f_equal. apply view_eq; cbn; [by rewrite insert_length|by apply Hdom|done..|]. intros j. rewrite ?insert_length in *.
        destruct (decide (j = i)) as [->|Hne].
        { rewrite decide_True by auto. by rewrite !list_lookup_insert by (by eapply lookup_lt_Some). }
        rewrite !list_lookup_insert_ne by done. destruct (decide _) as [[?|Hj]|]; [done| |done]. rewrite !lookup_ge_None_2; [done|lia|lia].
      * apply (Hsil (ls t)); [done|cbn; set_solver| | |done| |auto].
        { intros. cbn. by rewrite insert_length. }
        { intros Hn. destruct (lr_rest _ _ _ _ HR) as [Q1 Q2 Q3 Q4]; [eapply rest_keep; [|exact Hn]; by rewrite HS|]. split; try done. cbn. by rewrite insert_length. }
        cbn. split; [done|]. split; [done|]. split; [|done]. intros H HH. rewrite (R2 H HH). cbn. by rewrite HH.
    + (* LoadC *) destruct Hok as (Hc & Hkb & Hbr). cbn in Ha. destruct (h_c h !! c) as [y|] eqn:Hy; [|done]. injection Ha as <- <-. cbn [nx] in *.
      pose proof (lr_klen _ _ _ _ HR) as Hkl. cbn in Hkl. apply (f_equal (fun l => l !! c)) in Hkl. rewrite !list_lookup_fmap, Hy in Hkl. cbn in Hkl.
      destruct (h_c hs !! c) as [z|] eqn:Hz; [|done]. cbn in Hkl. injection Hkl as Hkl.
      destruct (tail_run _ (k y) _ i hs Hk) as [Ht1 Ht2]; [eauto|right; exists None; eauto|]. pose proof (tail_clean _ _ _ i b false None Hk ltac:(by left) ltac:(by right)) as Ht3.
      apply Hcom; [done| |done|cbn; set_solver|done| |done| |done].
      * rewrite R4. cbn. rewrite Hz. rewrite (Hext z y) by done. by rewrite Ht1, Ht3.
      * intros Hn. apply (lr_rest _ _ _ _ HR). eapply rest_keep; [|exact Hn]. by rewrite HS.
      * cbn. split; [done|]. split; [done|]. split; [|done]. unfold fits. by rewrite Ht3, R3, Hd1.
    + (* CallWrite *) pose proof (pc_none _ _ _ _ HR (okfam_private _ R0 Hok)) as Hno. destruct (lr_rest _ _ _ _ HR Hno) as [Q1 Q2 Q3 Q4]. cbn in Q1, Q2, Q3, Q4.
      cbn in Ha. destruct (ev_write E (h_w h) w p) as [w' y] eqn:Hw. injection Ha as <- <-. cbn [nx] in *.
      eapply lin_commit; try done; rewrite ?HS; try done; [|by left].
      rewrite R4. cbn. rewrite <- Q2, Hw. f_equal. apply view_eq; cbn; [done|by apply Hdom|done|done|by rewrite Q3|]. intros j.
      destruct (decide _) as [[->|Hj]|]; [by rewrite R3, Hd1| |done]. rewrite !lookup_ge_None_2; [done|lia|lia].
  - (* PE *) assert (i0 = i) as -> by (apply Hheld'; cbn; set_solver). destruct Hrel as (R0 & R1 & R2 & R3). destruct Hd as (Hd1 & Hd2 & Hd3).
    destruct a; cbn in Hok; try done. destruct l as [|c]; [done|]. cbn in Ha. injection Ha as <- <-. pose proof (okfam_common _ _ R0 Hok) as Hmd.
    assert (Hno : forall t', inC (S t') = false).
    { eapply pc_free; [exact HR|done|]. cbn in HL |- *. by destruct (L (MuC c)). }
    destruct (lr_rest _ _ _ _ HR Hno) as [Q1 Q2 Q3 Q4]. cbn in Q1, Q2, Q3, Q4.
    eapply Hsil; [done|cbn; set_solver|done| |done| |auto].
    + intros Hn. specialize (Hn t). by rewrite fn_lookup_insert in Hn.
    + cbn. split; [done|]. split; [done|]. split; [done|]. split; [|done]. rewrite (R2 hs R3). cbn. f_equal.
      apply view_eq; cbn; [done|by apply Hdom|done..|]. intros j. destruct (decide (j = i)) as [->|Hne].
      { rewrite decide_True by auto. by rewrite list_lookup_insert by (by eapply lookup_lt_Some). }
      rewrite list_lookup_insert_ne by done. destruct (decide _) as [[?|Hj]|]; [done| |done]. rewrite !lookup_ge_None_2; [done|lia|lia].
  - (* PC *) assert (i0 = i) as -> by (apply Hheld'; cbn; set_solver). destruct Hrel as (R0 & R1 & R2 & R3 & R4). specialize (Hdom i Hi).
    assert (Hno : forall t', t' <> t -> inC (S t') = false).
    { intros t' Hne. destruct (inC (S t')) eqn:Hc; [|done]. exfalso. apply Hne. eapply (pc_one _ _ _ _ _ _ c0 HR R0); [|done]. rewrite HS. cbn. set_solver. }
    assert (Hcm : holds (S t) = [MuB i] \/ (exists c, holds (S t) = [MuC c; MuB i])) by (right; exists c0; by rewrite HS).
    assert (Hvw : forall j, j = i \/ (length (h_b hs) <= j)%nat \/ (exists y, cur = Some y /\ j ∈ bodies_of y) -> h_b (view h hs i) !! j = h_b h !! j).
    { intros j Hj. rewrite view_lookup by done. destruct (decide _) as [|Hn]; [done|]. destruct Hj as [?|[?|(y & -> & Hj)]]; [tauto..|].
      destruct (sibling _ _ _ _ _ _ _ _ _ _ _ _ HR HS Hj) as [?|[?|?]]; [tauto..|done]. }
    assert (Hdd : forall j kd, d = Some (j, kd) -> (length (h_b hs) <= j)%nat) by (intros j kd ->; destruct R4; lia).
    assert (Hrun : run hs (cmd_prog fuel hs (Call i f)) = run (view h' hs i) (k x)).
    { rewrite R3. destruct (on_lock a) eqn:Hol.
      - destruct a; try done; cbn in Ha; injection Ha as <- <-; done.
      - cbn. rewrite (view_step h h' hs i _ b c0 d cur rs X a x Hle Hdom Hok Ha Hvw Hdd). done. }
    assert (Hlen : length (h_b h') = length (h_b h)).
    { clear - Ha Hok Hna. destruct a; cbn in Hok; try done; cbn in Ha;
      repeat match type of Ha with
      | context [let '(_, _) := ?e in _] => destruct e as [? ?]
      | match ?e with Some _ => _ | None => _ end = _ => destruct e eqn:?; [|done]
      end; injection Ha as <- <-; try done. cbn. by rewrite insert_length. }
    assert (Hgo : (exists cur' rs', nx (PC (Some (i, b)) c0 d cur rs) a x = PC (Some (i, b)) c0 d cur' rs') -> klen <$> h_c h' = klen <$> h_c h ->
      exists hs' ls', lrel (Conf h' L' (<[t := Busy (Call i f) (k x)]> T) K) (<[t := nx (PC (Some (i, b)) c0 d cur rs) a x]> S) hs' ls' /\ effect hs ls t (Call i f) hs' ls').
    { intros (cur' & rs' & Hn) Hkl. rewrite Hn in *. apply (Hsil (ls t)); [done|cbn; set_solver| | |done| |auto].
      - intros t' Hne Hc. by rewrite Hno in Hc.
      - intros Hn'. specialize (Hn' t). by rewrite fn_lookup_insert in Hn'.
      - cbn. rewrite Hlen. done. }
    assert (Hend : done_ph i (nx (PC (Some (i, b)) c0 d cur rs) a x) ->
      exists hs' ls', lrel (Conf h' L' (<[t := Busy (Call i f) (k x)]> T) K) (<[t := nx (PC (Some (i, b)) c0 d cur rs) a x]> S) hs' ls' /\ effect hs ls t (Call i f) hs' ls').
    { intros Hdn. eapply lin_commit; try done; rewrite ?HS; auto. }
    destruct a; cbn in Hok; try done.
    all: try (apply Hgo; [by eexists _, _|]; cbn in Ha;
      repeat match type of Ha with
      | context [let '(_, _) := ?e in _] => destruct e as [? ?]
      | match ?e with Some _ => _ | None => _ end = _ => destruct e eqn:?; [|done]
      end; injection Ha as <- <-; done).
    + apply Hend. done.
    + destruct Hok as (-> & y & -> & Hbod & _). cbn in Ha. destruct (h_c h !! c0) as [z|] eqn:Hz; [|done]. injection Ha as <- <-.
      destruct Hd as (_ & _ & _ & Hd). specialize (Hd _ eq_refl). assert (z = y) as -> by congruence.
      destruct (decide (klen x0 = klen y)) as [He|He].
      * apply Hgo; [cbn; rewrite decide_True by done; by eexists _, _|]. cbn. rewrite list_fmap_insert. apply list_insert_id. by rewrite list_lookup_fmap, Hz, He.
      * apply Hend. cbn. by rewrite decide_False.
  - (* PX *) assert (i0 = i) as -> by (apply Hheld'; cbn; set_solver). destruct Hrel as (R0 & R1 & R2 & R3 & R4).
    destruct a; cbn in Hok; try done. destruct l as [|c]; [done|]. subst c. cbn in Ha. injection Ha as <- <-. cbn [nx released] in *.
    apply (Hsil (ls t)); [done|cbn; set_solver|done| |done| |auto].
    + intros Hn. apply (lr_rest _ _ _ _ HR). eapply rest_keep; [|exact Hn]. by rewrite HS.
    + done.
  - (* PD *) assert (i0 = i) as -> by (apply Hheld'; cbn; set_solver). destruct Hrel as (R1 & R2 & R3 & R4).
    destruct a; cbn in Hok; try done.
    + destruct l as [j|]; [|done]. subst j. cbn in Ha. injection Ha as <- <-. cbn [nx] in *.
      apply (Hsil (ls t)); [done| |done| |done|done|auto].
      * intros j Hj _. rewrite (Hheld' j Hj). unfold fits in R3. cbn in R3. rewrite (tail_PF _ _ _ Hk) in R3. rewrite R3. by destruct (h_b h !! i).
      * intros Hn. apply (lr_rest _ _ _ _ HR). eapply rest_keep; [|exact Hn]. by rewrite HS.
    + destruct Hok as (-> & Hkb & Hcb & _). cbn in Ha. destruct (h_b h !! i) as [b1|] eqn:Hb1; [|done]. injection Ha as <- <-. cbn [nx] in *.
      apply (Hsil (ls t)); [done|cbn; set_solver| | |done| |auto].
      * intros. cbn. by rewrite insert_length.
      * intros Hn. destruct (lr_rest _ _ _ _ HR) as [Q1 Q2 Q3 Q4]; [eapply rest_keep; [|exact Hn]; by rewrite HS|]. split; try done. cbn. by rewrite insert_length.
      * cbn. split; [done|]. split; [done|]. split; [|done]. unfold fits in *. cbn. rewrite list_lookup_insert by (by eapply lookup_lt_Some). rewrite R3, Hb1. done.
Qed.

(** A copy is allocated together with the next action. *)
Lemma alloc_shape h L T K S hs ls t i f m h1 m1 : lrel (Conf h L T K) S hs ls -> T t = Busy (Call i f) m -> allocs E h m = (h1, m1) ->
  (h1 = h /\ m1 = m /\ forall X (a : act X) k, m = Do a k -> alloc_step E h a = None) \/
  (exists b d k, S t = PB i b /\ m = Do (NewB d) k /\ h1 = set_b h (h_b h ++ [d]) /\ m1 = k (length (h_b h)) /\
     kind_of d = kind_of b /\ body_common d = body_common b).
Proof.
  intros HR HT Hal. pose proof (lr_b _ _ _ _ HR) as HB. pose proof (bi_thr _ _ HB t) as Htok. cbn in Htok. rewrite HT in Htok. destruct Htok as [Hk [_ Hheld]].
  pose proof (lr_thr _ _ _ _ HR t) as Hrel. cbn in Hrel. rewrite HT in Hrel. cbn [trel] in Hrel.
  destruct m as [r|e| |X a k]; cbn in Hal; try (injection Hal as <- <-; by left).
  destruct Hk as (Hok & _ & Hk).
  assert (Hleft : alloc_step E h a = None -> (h, Do a k) = (h1, m1) -> h1 = h /\ m1 = Do a k /\ (forall X0 (a0 : act X0) k0, Do a k = Do a0 k0 -> alloc_step E h a0 = None)).
  { intros Hn Heq. split; [congruence|]. split; [congruence|]. intros X0 a0 k0 Hdo.
    pose (g := fun m : prog res => match m with Do a _ => match alloc_step E h a with None => true | Some _ => false end | _ => true end).
    apply (f_equal g) in Hdo. cbn in Hdo. rewrite Hn in Hdo. destruct (alloc_step E h a0); [done|done]. }
  destruct (alloc_step E h a) as [[h' x]|] eqn:Ha; [|left; by apply Hleft]. clear Hleft. right.
  destruct a; cbn in Ha; try done; injection Ha as <- <-.
  - destruct (S t) as [| | | |i0 b0| | | | | |] eqn:HS; try done; cbn in Hok; [by destruct Hok as (_ & _ & ?)|]. destruct Hok as (H1 & H2 & H3).
    assert (i0 = i) as ->. { specialize (Hheld i0 ltac:(cbn; set_solver)). cbn in Hheld. congruence. }
    exists b0, b, k. specialize (Hk (length (h_b h)) I). cbn [nx] in Hk.
    assert (allocs E (set_b h (h_b h ++ [b])) (k (length (h_b h))) = (set_b h (h_b h ++ [b]), k (length (h_b h)))) as He.
    { destruct (k (length (h_b h))) as [r|e| |Y a' k']; try done; cbn. destruct Hk as (Hok' & _). destruct a'; try done. }
    rewrite He in Hal. injection Hal as <- <-. done.
  - destruct (S t) as [| | | |i0 b0| | | | | |] eqn:HS; try done; cbn in Hok. by destruct Hok as (_ & _ & ?).
Qed.

Lemma lin_copy h L T K S hs ls t i f b d k X (a : act X) k' L' h' x : lrel (Conf h L T K) S hs ls -> T t = Busy (Call i f) (Do (NewB d) k) -> S t = PB i b ->
  kind_of d = kind_of b -> body_common d = body_common b -> k (length (h_b h)) = Do a k' ->
  lock_step L t a = Some L' -> act_step E (set_b h (h_b h ++ [d])) a = Some (h', x) ->
  exists s' hs' ls', lrel (Conf h' L' (<[t := Busy (Call i f) (k' x)]> T) K) (<[t := s']> S) hs' ls' /\ effect hs ls t (Call i f) hs' ls'.
Proof.
  intros HR HT HS Hkd Hcd Hkk HL Ha.
  pose proof (lr_b _ _ _ _ HR) as HB. pose proof (lr_f _ _ _ _ HR) as HF.
  pose proof (fine_step E _ _ _ _ _ _ _ _ (NewB d) k L _ _ HB HT eq_refl eq_refl) as HB1.
  pose proof (fine_step_f E _ _ _ _ _ _ _ _ (NewB d) k L _ _ HB HF HT eq_refl eq_refl) as HF1.
  set (h1 := set_b h (h_b h ++ [d])) in *. set (j := length (h_b h)) in *. rewrite HS in HB1, HF1. cbn [nx] in HB1, HF1. rewrite Hkk in HB1, HF1.
  pose proof (fine_step E _ _ _ _ _ _ _ _ _ _ _ _ _ HB1 (fn_lookup_insert _ _ _) HL Ha) as HB2.
  pose proof (fine_step_f E _ _ _ _ _ _ _ _ _ _ _ _ _ HB1 HF1 (fn_lookup_insert _ _ _) HL Ha) as HF2.
  rewrite fn_lookup_insert in HB2, HF2.
  assert (HB' : binv (Conf h' L' (<[t:=Busy (Call i f) (k' x)]> T) K) (<[t:=nx (PG i b j) a x]> S)).
  { eapply binv_ext; [| |exact HB2]; intros t'; by rewrite upd_twice. }
  assert (HF' : finv (Conf h' L' (<[t:=Busy (Call i f) (k' x)]> T) K) (<[t:=nx (PG i b j) a x]> S)).
  { eapply finv_ext; [| |exact HF2]; intros t'; by rewrite upd_twice. }
  clear HB2 HF2.
  pose proof (bi_thr _ _ HB1 t) as Htok. cbn in Htok. rewrite !fn_lookup_insert in Htok. destruct Htok as [(Hok & _ & _) _].
  pose proof (lr_thr _ _ _ _ HR t) as Hrel. cbn in Hrel. rewrite HT, HS in Hrel. cbn [trel] in Hrel. destruct Hrel as (R0 & R1 & R2 & R3).
  pose proof (so_d _ _ (bi_so _ _ HB t)) as Hd. cbn in Hd. rewrite HS in Hd. destruct Hd as [Hd1 Hd2]. rewrite Hd1 in R3. pose proof (R2 hs R3) as R4.
  pose proof (lr_dom _ _ _ _ HR) as Hdom. cbn in Hdom.
  assert (Hi : (i < length (h_b hs))%nat). { apply Hdom. eapply (fi_uses _ _ HF); [exact HT|]. cbn. set_solver. }
  assert (Hev : evolves h h1 (S t)) by apply evolves_newb.
  assert (Hfam : forall j, fam h j -> fam h1 j).
  { intros j0 (b0 & Hb0 & Hf0). exists b0. cbn. split; [by apply lookup_app_l_Some|done]. }
  assert (Hfj : fam h1 j).
  { exists d. cbn. rewrite lookup_app_r, Nat.sub_diag by done. split; [done|]. eapply okfam_like; eauto. }
  assert (Hrun : forall m', (forall H, run H (Do a k') = run H m') -> length (h_b h) = length (h_b hs) -> h_c h = h_c hs -> h_w h = h_w hs -> h_log h = h_log hs ->
    run hs (cmd_prog fuel hs (Call i f)) = run (view h1 hs i) m').
  { intros m' Hm' Hl Q1 Q2 Q3. rewrite <- Hm', <- Hkk, R4. unfold j. rewrite Hl. cbn. f_equal.
    apply view_eq; cbn; [rewrite app_length; lia|done..|]. intros j0. destruct (decide _) as [[->|Hj]|Hn].
    - rewrite !lookup_app_l by lia. by rewrite R3, Hd1.
    - rewrite !lookup_app_r by lia. by rewrite Hl.
    - rewrite lookup_app_l by lia. done. }
  destruct a; cbn in Hok; try done.
  - destruct l as [|c]; [done|]. cbn in Ha. injection Ha as <- <-. cbn [nx] in *.
    pose proof (okfam_common _ _ R0 Hok) as Hmd.
    assert (Hno : forall t', inC (S t') = false).
    { eapply pc_free; [exact HR|done|]. cbn in HL |- *. by destruct (L (MuC c)). }
    destruct (lr_rest _ _ _ _ HR Hno) as [Q1 Q2 Q3 Q4]. cbn in Q1, Q2, Q3, Q4.
    eexists _, hs, (<[t := ls t]> ls). split; [|left; split; [done|by apply upd_same]].
    eapply lrel_quiet; try done; rewrite ?HS.
    + cbn. set_solver.
    + intros t' _ Hc. by rewrite Hno in Hc.
    + intros Hn. specialize (Hn t). by rewrite fn_lookup_insert in Hn.
    + cbn. split; [done|]. split; [done|]. split; [done|]. split; [by apply (Hrun (k' tt))|]. split; [done|]. rewrite app_length. cbn. lia.
    + cbn. intros j0 [= <-]. by right.
  - destruct l as [i1|c]; [|done]. cbn in Ha. injection Ha as <- <-. cbn [nx] in *. destruct Hok as (-> & Hc & Hp).
    pose proof (pc_none _ _ _ _ HR (okfam_private _ R0 Hp)) as Hno. destruct (lr_rest _ _ _ _ HR Hno) as [Q1 Q2 Q3 Q4]. cbn in Q1, Q2, Q3, Q4.
    eexists. eapply lin_commit; try done; rewrite ?HS; try done.
    + by apply (Hrun (k' tt)).
    + by left.
    + cbn. intros j0 [= <-]. by right.
Qed.

(** ** Any step *)
Theorem lin_step cf S hs ls e cf' : lrel cf S hs ls -> cstep E fuel cf e cf' -> (forall t c, e = Some (Inv t c) -> exists i f, c = Call i f) ->
  exists S' hs' ls' l, lrel cf' S' hs' ls' /\ observed l = match e with Some e => [e] | None => [] end /\
    forall h0 s0 l0, explains E fuel h0 s0 l0 hs ls -> explains E fuel h0 s0 (l0 ++ l) hs' ls'.
Proof.
  intros HR Hst Hcall. destruct cf as [h L T K].
  assert (Heff : forall cf' S' hs' ls' t c, lrel cf' S' hs' ls' -> effect hs ls t c hs' ls' ->
    exists S' hs' ls' l, lrel cf' S' hs' ls' /\ observed l = [] /\ forall h0 s0 l0, explains E fuel h0 s0 l0 hs ls -> explains E fuel h0 s0 (l0 ++ l) hs' ls').
  { intros cf1 S' hs' ls' t c HR' [[-> Hls]|(H1 & o & H2 & H3 & ->)].
    - exists S', hs, ls, []. split; [destruct cf1; eapply lrel_ext; [..|exact HR']; [done|done|intros t'; symmetry; apply Hls]|]. split; [done|]. intros. by rewrite app_nil_r.
    - exists S', hs', (<[t := LDone o]> ls), [At t]. split; [done|]. split; [done|]. intros. by eapply ex_at. }
  pose proof (lr_b _ _ _ _ HR) as HB. pose proof (lr_f _ _ _ _ HR) as HF.
  destruct Hst as [t c HT Hu|t c m h1 X a k L' h2 x HT Hal HL Ha|t c m h1 m1 o HT Hal Ho]; cbn in *.
  - destruct (Hcall _ _ eq_refl) as (i & f & ->). clear Hcall. inversion Hu as [|? ? Hi _]; subst.
    exists (<[t := P0]> S), hs, (<[t := LCalled (Call i f)]> ls), [Begins t (Call i f)].
    pose proof (lr_thr _ _ _ _ HR t) as Hrel. cbn in Hrel. rewrite HT in Hrel. cbn in Hrel.
    pose proof (bi_thr _ _ HB t) as Hs. cbn in Hs. rewrite HT in Hs. cbn in Hs.
    split; [|split; [done|by intros; apply ex_begins]].
    destruct HR as [_ _ H3 H4 H5 H6 H7 H8 H9 H10]. cbn in *. split; cbn; try done.
    + by apply call_b.
    + by apply call_f.
    + intros t'. destruct (decide (t = t')) as [<-|Hne]; [rewrite !fn_lookup_insert|by rewrite !fn_lookup_insert_ne]. cbn. split; [done|]. apply prog_kind. symmetry. by apply H5, H6.
    + intros j [Hj|(t' & Hj)]; [by apply H7; left|]. destruct (decide (t = t')) as [<-|Hne]; [by rewrite fn_lookup_insert in Hj|]. rewrite fn_lookup_insert_ne in Hj by done. eauto.
    + intros j Hj Hn. apply H8; [done|]. intros t'. destruct (decide (t = t')) as [<-|Hne]; [rewrite Hs; cbn; apply not_elem_of_nil|]. specialize (Hn t'). by rewrite fn_lookup_insert_ne in Hn.
    + intros Hn. apply H9. eapply rest_keep; [|exact Hn]. by rewrite Hs.
  - clear Hcall. pose proof (lr_thr _ _ _ _ HR t) as Hrel. cbn in Hrel. rewrite HT in Hrel. destruct c as [i f| | | | | | |]; try done.
    destruct (alloc_shape _ _ _ _ _ _ _ _ _ _ _ _ _ HR HT Hal) as [(-> & <- & Hn)|(b & d & k1 & HS & -> & -> & Hm & Hkd & Hcd)].
    + destruct (lin_act _ _ _ _ _ _ _ _ _ _ _ _ _ _ _ _ HR HT HL Ha (Hn _ _ _ eq_refl)) as (hs' & ls' & HR' & He). by eapply Heff.
    + destruct (lin_copy _ _ _ _ _ _ _ _ _ _ _ _ _ _ _ _ _ _ _ HR HT HS Hkd Hcd (eq_sym Hm) HL Ha) as (s' & hs' & ls' & HR' & He). by eapply Heff.
  - clear Hcall. pose proof (lr_thr _ _ _ _ HR t) as Hrel. cbn in Hrel. rewrite HT in Hrel. destruct c as [i f| | | | | | |]; try done.
    destruct (alloc_shape _ _ _ _ _ _ _ _ _ _ _ _ _ HR HT Hal) as [(-> & -> & Hn)|(b & d & k1 & HS & -> & -> & Hm & Hkd & Hcd)].
    2:{ exfalso. pose proof (bi_thr _ _ HB t) as Htok. cbn in Htok. rewrite HT, HS in Htok. destruct Htok as [(_ & _ & Htok) _]. specialize (Htok (length (h_b h)) I).
        rewrite <- Hm in Htok. destruct m1; cbn in Ho; try done; by destruct Htok. }
    destruct (fin_stops _ _ _ _ _ _ _ _ _ HB HT Ho) as [Hidle _].
    pose proof (fin_gives _ _ _ _ _ _ _ _ _ HB HF HT Ho) as Hnew.
    assert (Hend : lrel (Conf h L (<[t := Idle]> T) (gives o ++ K)) (<[t := PF None]> S) hs (<[t := LIdle]> ls)).
    { assert (Hgl : forall j, j ∈ gives o -> (j < length (h_b hs))%nat).
      { intros j Hj. destruct (Hnew j Hj) as [Hk|Hf]; [by apply (lr_dom _ _ _ _ HR)|].
        destruct (S t) as [| | | | | | | | | |d] eqn:HS; try done. cbn [trel rel] in Hrel. destruct Hrel as [_ Hd].
        destruct d as [[j' k']|]; [|done]. injection Hf as ->. by eapply Hd. }
      destruct HR as [_ _ H3 H4 H5 H6 H7 H8 H9 H10]. cbn in *. split; cbn; try done.
      + by eapply fin_b.
      + by eapply fin_f.
      + intros t'. destruct (decide (t = t')) as [<-|Hne]; [by rewrite !fn_lookup_insert|by rewrite !fn_lookup_insert_ne].
      + intros j [Hj|Hj]%elem_of_app; auto.
      + intros j [[Hj|Hj]%elem_of_app|(t' & Hj)].
        * apply H7. destruct (Hnew j Hj); eauto.
        * auto.
        * destruct (decide (t = t')) as [<-|Hne]; [by rewrite fn_lookup_insert in Hj|]. rewrite fn_lookup_insert_ne in Hj by done. eauto.
      + clear Hn. intros j Hj Hn. apply H8; [done|]. intros t'. destruct (decide (t = t')) as [<-|Hne]; [destruct (S t); try done; apply not_elem_of_nil|]. specialize (Hn t'). by rewrite fn_lookup_insert_ne in Hn.
      + clear Hn. intros Hn. apply H9. eapply rest_keep; [|exact Hn]. by destruct (S t). }
    exists (<[t := PF None]> S), hs.
    destruct (S t) as [| | | | | | | | | |d] eqn:HS; try done; cbn [trel rel] in Hrel.
    + destruct Hrel as [Hl Hm]. exists (<[t := LIdle]> (<[t := LDone o]> ls)), [At t; Ends t o].
      split; [eapply lrel_ext; [..|exact Hend]; [done|done|intros t'; apply upd_twice]|]. split; [done|].
      intros h0 s0 l0 He. change [At t; Ends t o] with ([At t] ++ [Ends t o]). rewrite app_assoc. apply ex_ends; [|by rewrite fn_lookup_insert].
      eapply ex_at; [done|done| |by destruct m; try done; injection Ho as <-].
      unfold exec. rewrite <- Hm. destruct m; try done; by injection Ho as <-.
    + destruct Hrel as [Hl _]. exists (<[t := LIdle]> ls), [Ends t o]. split; [done|]. split; [done|].
      intros h0 s0 l0 He. apply ex_ends; [done|]. rewrite Hl. destruct m; try done; by injection Ho as <-.
Qed.

End Lin.
