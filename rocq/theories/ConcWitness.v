(** * Schedules for the examples *)
From Verif Require Export ConcSpec Witness.

Section Sched.
Context {W : Type} (E : env W) (fuel : nat).
Notation csteps := (csteps E fuel).

Lemma steps_app cf1 evs1 cf2 evs2 cf3 : csteps cf1 evs1 cf2 -> csteps cf2 evs2 cf3 -> csteps cf1 (evs1 ++ evs2) cf3.
Proof. intros H1 H2. induction H2 as [|evs cf3 e cf4 _ IH Hs]; [by rewrite app_nil_r|]. rewrite app_assoc. by econstructor. Qed.
Lemma steps_then cf e cf' r : cstep E fuel cf e cf' -> csteps cf' (fst r) (snd r) -> csteps cf (fst (then_ e r)) (snd (then_ e r)).
Proof.
  intros H1 H2. cbn. eapply steps_app; [|exact H2]. apply (css_snoc E fuel cf [] cf e cf'); [constructor|done].
Qed.
Lemma do_call_ok t c cf e cf' : do_call fuel t c cf = Some (e, cf') -> cstep E fuel cf e cf'.
Proof. unfold do_call. destruct (cf_t cf t) eqn:Ht; [|done]. destruct (decide _); [|done]. intros [= <- <-]. by constructor. Qed.
Lemma do_step_ok t cf e cf' : do_step E t cf = Some (e, cf') -> cstep E fuel cf e cf'.
Proof.
  unfold do_step. destruct (cf_t cf t) as [|c m] eqn:Ht; [done|]. destruct (allocs E (cf_h cf) m) as [h1 m1] eqn:Hal.
  destruct m1 as [r|p| |X a k] eqn:Hm; cbn [outcome]; try done.
  - intros [= <- <-]. by eapply cs_fin.
  - intros [= <- <-]. by apply (cs_fin E fuel cf t c m h1 (Panic p) (OPanic p)).
  - destruct (lock_step (cf_l cf) t a) as [L|] eqn:HL; [|done]. destruct (act_step E h1 a) as [[h2 x]|] eqn:Ha; [|done].
    intros [= <- <-]. by eapply cs_act.
Qed.
Lemma do_steps_ok t n : forall cf, csteps cf (fst (do_steps E n t cf)) (snd (do_steps E n t cf)).
Proof.
  induction n as [|n IH]; intros cf; cbn; [constructor|]. destruct (do_step E t cf) as [[e cf']|] eqn:Hs; [|constructor].
  eapply steps_then; [by eapply do_step_ok|apply IH].
Qed.
Theorem schedule_ok s : forall cf, csteps cf (fst (schedule E fuel s cf)) (snd (schedule E fuel s cf)).
Proof.
  induction s as [|[t c|t n] s IH]; intros cf; cbn; [constructor| |].
  - destruct (do_call fuel t c cf) as [[e cf']|] eqn:Hs; [|apply IH]. eapply steps_then; [by eapply do_call_ok|apply IH].
  - eapply steps_app; [apply do_steps_ok|apply IH].
Qed.

Lemma scheduled s cf r : r = schedule E fuel s cf -> csteps cf (fst r) (snd r).
Proof. intros ->. apply schedule_ok. Qed.

(** What goroutine [t] is about to do. *)
Definition next (cf : conf W) (t : tid) : string :=
  match cf_t cf t with
  | Idle => "idle"
  | Busy _ m => match snd (allocs E (cf_h cf) m) with
                | Do a _ => match a with
                            | Lock (MuB _) => "lock body" | Lock (MuC _) => "lock shared" | Unlock (MuB _) => "unlock body" | Unlock (MuC _) => "unlock shared"
                            | LoadB _ => "load body" | StoreB _ _ => "store body" | LoadC _ => "load shared" | StoreC _ _ => "store shared"
                            | CallRead _ _ => "read" | CallReadAt _ _ _ => "readat" | CallSeek _ _ _ => "seek" | CallClose _ => "close" | CallStat _ => "stat"
                            | _ => "other"
                            end
                | Spin => "spin"
                | _ => "end"
                end
  end.

(** Computing something about the next action is enough to know it. *)
Definition next_of {A} (f : forall X, act X -> option A) (cf : conf W) (t : tid) : option A :=
  match cf_t cf t with
  | Idle => None
  | Busy _ m => match snd (allocs E (cf_h cf) m) with Do a _ => f _ a | _ => None end
  end.
Lemma next_of_ok {A} (f : forall X, act X -> option A) cf t x : next_of f cf t = Some x -> exists X (a : act X), at_act E cf t a /\ f X a = Some x.
Proof.
  unfold next_of. destruct (cf_t cf t) as [|c m] eqn:Ht; [done|]. destruct (allocs E (cf_h cf) m) as [h1 m1] eqn:Hal.
  destruct m1 as [| | |X a k]; cbn; intros Hf; try done. exists X, a. split; [|done]. exists c, m, h1, k. by rewrite Hal.
Qed.
Definition stored {X} (a : act X) : option (nat * Z) := match a with StoreC c (CSeeker y) => Some (c, sc_length y) | _ => None end.
Lemma next_load cf t c : next_of (@reads_shared) cf t = Some c -> at_act E cf t (LoadC c).
Proof. intros (X & a & Ha & Hc)%next_of_ok. destruct a; try done. by injection Hc as <-. Qed.
Lemma next_stored cf t c n : next_of (@stored) cf t = Some (c, n) -> exists y, at_act E cf t (StoreC c (CSeeker y)) /\ sc_length y = n.
Proof. intros (X & a & Ha & Hc)%next_of_ok. destruct a as [| | | | | |? x| | | | | | | |]; try done. destruct x; try done. injection Hc as <- <-. eauto. Qed.
Lemma next_store_body cf t i : next_of (@writes_body) cf t = Some i -> exists b, at_act E cf t (StoreB i b).
Proof. intros (X & a & Ha & Hc)%next_of_ok. destruct a; try done. injection Hc as <-. eauto. Qed.
Definition busy (cf : conf W) (t : tid) : bool := match cf_t cf t with Idle => false | Busy _ _ => true end.
Lemma busy_ok cf t : busy cf t = true -> cf_t cf t <> Idle.
Proof. unfold busy. by destruct (cf_t cf t). Qed.
Lemma not_busy cf t : busy cf t = false -> cf_t cf t = Idle.
Proof. unfold busy. by destruct (cf_t cf t). Qed.

(** Goroutines that a schedule does not mention stay as they are. *)
Definition mentions (t : tid) (s : list choice) : bool := existsb (fun x => match x with Begin t' _ | Go t' _ => Nat.eqb t t' end) s.
Lemma do_step_other t t' cf e cf' : do_step E t cf = Some (e, cf') -> t <> t' -> cf_t cf' t' = cf_t cf t'.
Proof.
  unfold do_step. intros Hs Hne. destruct (cf_t cf t) as [|c m]; [done|]. destruct (allocs E (cf_h cf) m) as [h1 m1].
  destruct m1 as [r|p| |X a k]; cbn [outcome] in Hs; try done.
  1,2: injection Hs as _ <-; cbn; by rewrite fn_lookup_insert_ne.
  destruct (lock_step (cf_l cf) t a); [|done]. destruct (act_step E h1 a) as [[h2 x]|]; [|done]. injection Hs as _ <-. cbn. by rewrite fn_lookup_insert_ne.
Qed.
Lemma do_steps_other t t' n : forall cf, t <> t' -> cf_t (do_steps E n t cf).2 t' = cf_t cf t'.
Proof.
  induction n as [|n IH]; intros cf Hne; cbn; [done|]. destruct (do_step E t cf) as [[e cf']|] eqn:Hs; [|done]. cbn. rewrite IH by done. by eapply do_step_other.
Qed.
Lemma schedule_other t s : forall cf, mentions t s = false -> cf_t (schedule E fuel s cf).2 t = cf_t cf t.
Proof.
  induction s as [|[t' c|t' n] s IH]; intros cf Hm; cbn in *; [done| |]; apply orb_false_iff in Hm as [Ht Hm]; apply Nat.eqb_neq in Ht.
  - destruct (do_call fuel t' c cf) as [[e cf']|] eqn:Hs; [|by apply IH]. cbn. rewrite IH by done.
    unfold do_call in Hs. destruct (cf_t cf t'); [|done]. destruct (decide _); [|done]. injection Hs as _ <-. cbn. by rewrite fn_lookup_insert_ne.
  - rewrite IH by done. by apply do_steps_other.
Qed.
End Sched.

(** A seekable source said to be 100 bytes long, a Body made of it (handle 1) and a copy (handle 2). *)
Definition two_copies (r : cmd) : list choice := [Begin 0%nat r; Go 0%nat 50; Begin 0%nat (Call 1%nat Copy); Go 0%nat 50].
