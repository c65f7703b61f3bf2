(** * What holds between any two steps of any goroutines (proof infrastructure) *)
From Coq Require Import ZifyBool.
From Verif Require Import Wf.
From Verif Require Export Typed.

Definition holds (s : ph) : list lock :=
  match s with
  | P0 | PF _ | PN _ _ | PM _ _ _ _ => []
  | PA i | PB i _ | PG i _ _ | PE i _ _ | PD i _ _ _ => [MuB i]
  | PC o c _ _ _ | PX o c _ => MuC c :: match o with Some (i, _) => [MuB i] | None => [] end
  end.

Section Inv.
Context {W : Type} (E : env W) (fuel : nat).
Implicit Types h : heap W.
Implicit Types cf : conf W.

Definition kindat h (i : nat) (k : kind) : Prop := exists b, h_b h !! i = Some b /\ kind_of b = k.
Definition cvalid h (c : nat) : Prop := is_Some (h_c h !! c).
Definition points h (b : bobj) : Prop := forall c, body_common b = Some c -> cvalid h c.

(** What a goroutine in a phase knows of the heap. *)
Definition dyn h (s : ph) : Prop :=
  match s with
  | P0 | PF _ => True
  | PN c _ => cvalid h c
  | PM c _ j b => cvalid h c /\ kindat h j (kind_of b)
  | PA i => is_Some (h_b h !! i)
  | PB i b => h_b h !! i = Some b /\ points h b
  | PG i b j => h_b h !! i = Some b /\ points h b /\ kindat h j (kind_of b)
  | PE i b b' => h_b h !! i = Some b' /\ kind_of b' = kind_of b /\ points h b
  | PC o c d cur _ => cvalid h c /\ (forall i b, o = Some (i, b) -> kindat h i (kind_of b) /\ points h b) /\
      (forall j k, d = Some (j, k) -> kindat h j k) /\ (forall x, cur = Some x -> h_c h !! c = Some x)
  | PX o c _ => cvalid h c /\ (forall i b, o = Some (i, b) -> kindat h i (kind_of b) /\ points h b)
  | PD i b _ _ => kindat h i (kind_of b) /\ points h b
  end.

Definition pointers h : Prop := forall i b, h_b h !! i = Some b -> points h b /\ bwf b.
Definition members h : Prop := forall c x j, h_c h !! c = Some x -> j ∈ bodies_of x -> kindat h j KBuffered.

(** The change an action makes to the heap. *)
Record evolves h h' (s : ph) : Prop := {
  ev_kind : forall i b, h_b h !! i = Some b -> exists b', h_b h' !! i = Some b' /\ kind_of b' = kind_of b;
  ev_b : forall i b, h_b h !! i = Some b -> MuB i ∉ holds s -> h_b h' !! i = Some b;
  ev_cv : forall c, cvalid h c -> cvalid h' c;
  ev_c : forall c x, h_c h !! c = Some x -> MuC c ∉ holds s -> h_c h' !! c = Some x
}.

Lemma evolves_refl h s : evolves h h s.
Proof. split; eauto. Qed.
Lemma evolves_emit h w ev s : evolves h (emit h w ev) s.
Proof. split; eauto. Qed.
Lemma evolves_store h i b b' s : h_b h !! i = Some b -> kind_of b' = kind_of b -> MuB i ∈ holds s -> evolves h (set_b h (<[i := b']> (h_b h))) s.
Proof.
  intros Hi Hk Hs. split; cbn; eauto.
  - intros j bj Hj. destruct (decide (i = j)) as [<-|Hne].
    + exists b'. rewrite list_lookup_insert by (by eapply lookup_lt_Some). split; [done|congruence].
    + rewrite list_lookup_insert_ne by done. eauto.
  - intros j bj Hj Hn. rewrite list_lookup_insert_ne; [done|]. by intros ->.
Qed.
Lemma evolves_storec h c y x s : h_c h !! c = Some y -> MuC c ∈ holds s -> evolves h (set_c h (<[c := x]> (h_c h))) s.
Proof.
  intros Hc Hs. split; cbn; eauto.
  - intros c' Hv. unfold cvalid in *. cbn. rewrite lookup_lt_is_Some in *. by rewrite insert_length.
  - intros c' x' Hx Hn. rewrite list_lookup_insert_ne; [done|]. by intros ->.
Qed.
Lemma evolves_newb h b s : evolves h (set_b h (h_b h ++ [b])) s.
Proof.
  split; cbn; eauto.
  - intros i bi Hi. exists bi. split; [|done]. by apply lookup_app_l_Some.
  - intros i bi Hi _. by apply lookup_app_l_Some.
Qed.
Lemma evolves_newc h x s : evolves h (set_c h (h_c h ++ [x])) s.
Proof.
  split; cbn; eauto.
  - intros c [y Hy]. exists y. by apply lookup_app_l_Some.
  - intros c y Hy _. by apply lookup_app_l_Some.
Qed.
Lemma evolves_kindat h h' s i k : evolves h h' s -> kindat h i k -> kindat h' i k.
Proof. intros H (b & Hb & <-). destruct (ev_kind _ _ _ H i b Hb) as (b' & H1 & H2). by exists b'. Qed.
Lemma evolves_points h h' s b : evolves h h' s -> points h b -> points h' b.
Proof. intros H Hp c Hc. eapply ev_cv; eauto. Qed.

(** Another goroutine's knowledge is not invalidated. *)
Lemma dyn_stable h h' s s' : evolves h h' s -> (forall l, l ∈ holds s -> l ∉ holds s') -> dyn h s' -> dyn h' s'.
Proof.
  intros H Hd. assert (Hd' : forall l, l ∈ holds s' -> l ∉ holds s) by (intros l H1 H2; by eapply Hd).
  destruct s'; cbn; eauto using ev_cv, evolves_kindat, evolves_points.
  - intros [? ?]. eauto using ev_cv, evolves_kindat.
  - intros [b Hb]. destruct (ev_kind _ _ _ H _ _ Hb) as (b' & H1 & _). by exists b'.
  - intros [H1 H2]. split; [|by eapply evolves_points]. eapply ev_b; [done..|]. apply Hd'. cbn. set_solver.
  - intros (H1 & H2 & H3). split; [|eauto using evolves_points, evolves_kindat]. eapply ev_b; [done..|]. apply Hd'. cbn. set_solver.
  - intros (H1 & H2 & H3). split; [|eauto using evolves_points]. eapply ev_b; [done..|]. apply Hd'. cbn. set_solver.
  - intros (H1 & H2 & H3 & H4). split; [by eapply ev_cv|]. split.
    { intros i b Ho. destruct (H2 i b Ho). eauto using evolves_points, evolves_kindat. }
    split; [eauto using evolves_kindat|]. intros x Hx. eapply ev_c; [done|by apply H4|]. apply Hd'. cbn. set_solver.
  - intros (H1 & H2). split; [by eapply ev_cv|]. intros i b Ho. destruct (H2 i b Ho). eauto using evolves_points, evolves_kindat.
  - intros [? ?]. eauto using evolves_points, evolves_kindat.
Qed.

Lemma act_possible h P s X (a : act X) : dyn h s -> members h -> ok P s a -> is_Some (act_step E h a).
Proof.
  intros Hd Hm Hok.
  assert (Hl : forall i, is_Some (h_b h !! i) -> is_Some (act_step E h (LoadB i))) by (intros i [b Hb]; cbn; rewrite Hb; eauto).
  assert (Hs : forall i b, is_Some (h_b h !! i) -> is_Some (act_step E h (StoreB i b))) by (intros i b [b' Hb]; cbn; rewrite Hb; eauto).
  assert (Hlc : forall i, cvalid h i -> is_Some (act_step E h (LoadC i))) by (intros i [b Hb]; cbn; rewrite Hb; eauto).
  assert (Hsc : forall i x, cvalid h i -> is_Some (act_step E h (StoreC i x))) by (intros i b [b' Hb]; cbn; rewrite Hb; eauto).
  destruct s; destruct a; cbn in Hok, Hd; try done;
    try (apply Hl || apply Hs || apply Hlc || apply Hsc); cbn [act_step];
    repeat match goal with
    | |- context [let '(_, _) := ?e in _] => destruct e
    end; eauto; subst; eauto.
  all: destruct_and?.
  all: try (subst; by eauto).
  - destruct Hok as [Hi|[Hi|(x & -> & Hi)]].
    + destruct o as [[i' b']|]; cbn in Hi; [apply elem_of_list_singleton in Hi as -> |by apply elem_of_nil in Hi].
      destruct (H1 _ _ eq_refl) as [(b2 & Hb2 & _) _]. eauto.
    + destruct d as [[j k]|]; cbn in Hi; [apply elem_of_list_singleton in Hi as -> |by apply elem_of_nil in Hi].
      destruct (H0 _ _ eq_refl) as (b2 & Hb2 & _). eauto.
    + destruct (Hm _ _ _ (H3 _ eq_refl) Hi) as (b2 & Hb2 & _). eauto.
  - destruct Hok as (b' & -> & _). destruct (H1 _ _ eq_refl) as [(b2 & Hb2 & _) _]. eauto.
  - subst. match goal with H : kindat _ _ _ |- _ => destruct H as (b2 & Hb2 & _) end. eauto.
Qed.

Lemma pointers_storeb h i b : pointers h -> points h b -> bwf b -> pointers (set_b h (<[i := b]> (h_b h))).
Proof. intros H1 H2 H3 j bj. cbn. intros [(-> & <- & _)|[_ Hj]]%list_lookup_insert_Some; [done|]. by eapply H1. Qed.
Lemma pointers_newb h b : pointers h -> points h b -> bwf b -> pointers (set_b h (h_b h ++ [b])).
Proof. intros H1 H2 H3 j bj. cbn. intros [Hj|[_ Hj]]%lookup_app_Some; [by eapply H1|]. by apply list_lookup_singleton_Some in Hj as [_ <-]. Qed.
Lemma members_c h h' s : evolves h h' s -> h_c h' = h_c h -> members h -> members h'.
Proof. intros Hev Hc Hm c x j Hx Hj. rewrite Hc in Hx. eapply evolves_kindat; eauto. Qed.
Lemma pointers_b h h' s : evolves h h' s -> h_b h' = h_b h -> pointers h -> pointers h'.
Proof. intros Hev Hb Hp i b Hi. rewrite Hb in Hi. destruct (Hp i b Hi). split; [by eapply evolves_points|done]. Qed.
Lemma points_none h b : body_common b = None -> points h b.
Proof. intros Hb c. by rewrite Hb. Qed.

Lemma fresh_b h b : kindat (set_b h (h_b h ++ [b])) (length (h_b h)) (kind_of b).
Proof. exists b. split; [|done]. cbn. by rewrite lookup_app_r, Nat.sub_diag by done. Qed.
Lemma fresh_c h x : cvalid (set_c h (h_c h ++ [x])) (length (h_c h)).
Proof. exists x. cbn. by rewrite lookup_app_r, Nat.sub_diag by done. Qed.

(** The heap part of the invariant, and what one action does to it. *)
Record sound h (s : ph) : Prop := { so_p : pointers h; so_m : members h; so_d : dyn h s }.

Lemma sound_same h h' s s' : evolves h h' s -> h_b h' = h_b h -> h_c h' = h_c h -> sound h s -> dyn h' s' ->
  evolves h h' s /\ sound h' s'.
Proof. intros Hev Hb Hc [Hp Hm Hd] Hd'. split; [done|]. split; [by eapply pointers_b|by eapply members_c|done]. Qed.

Lemma act_sound h h' P s X (a : act X) x : sound h s -> ok P s a -> act_step E h a = Some (h', x) ->
  (s = P0 -> forall i, p_hd P = Some i -> is_Some (h_b h !! i)) ->
  rok s a x /\ evolves h h' s /\ sound h' (nx s a x).
Proof.
  intros Hso Hok Hst Hhd.
  assert (Hr : rok s a x).
  { destruct s; try done.
    { destruct a; cbn; try done. cbn in Hst. destruct (h_b h !! i0) eqn:Hi; [|done]. injection Hst as <- <-. by eapply (so_p _ _ Hso). }
    destruct cur as [y|]; [|done]. destruct a; cbn; try done. cbn in Hok. subst.
    destruct (so_d _ _ Hso) as (_ & _ & _ & Hc). cbn in Hst. rewrite (Hc y eq_refl) in Hst. by simplify_eq. }
  split; [done|].
  assert (Hpts : forall i b, h_b h !! i = Some b -> points h b) by (intros; by eapply Hso).
  destruct Hso as [Hp Hm Hd].
  assert (Hso : sound h s) by done.
  destruct s; destruct a; cbn in Hok; try done; cbn [act_step] in Hst;
    repeat match type of Hst with
    | context [let '(_, _) := ?e in _] => destruct e as [? ?]
    | match ?e with Some _ => _ | None => _ end = _ => destruct e eqn:?; [|done]
    end; injection Hst as <- <-.
  all: cbn [nx]; try (apply sound_same; [apply evolves_refl || apply evolves_emit|done|done|done|]; cbn in *; done).
  all: try match goal with l : lock |- _ => destruct l end; try done; cbn in Hd; destruct_and?; subst.
  - apply sound_same; eauto using evolves_refl; cbn; eauto.
  - pose proof (evolves_newb h b P0) as Hev. split; [done|]. split; [|by eapply members_c|done]. apply pointers_newb; [done|by apply points_none|done].
  - pose proof (evolves_newc h x0 P0) as Hev. split; [done|]. split; [by eapply pointers_b| |by apply fresh_c].
    intros c y j. cbn. intros [Hc|[_ Hc]]%lookup_app_Some Hj; [by eapply Hm|].
    apply list_lookup_singleton_Some in Hc as [_ <-]. match goal with H : bodies_of _ = [] |- _ => by rewrite H, elem_of_nil in Hj end.
  - pose proof (evolves_newb h b (PN c x0)) as Hev. split; [done|]. split; [|by eapply members_c|].
    + apply pointers_newb; [done| |done]. intros c' Hc'. by assert (c' = c) as -> by congruence.
    + split; [by eapply ev_cv|apply fresh_b].
  - apply sound_same; eauto using evolves_refl. cbn. split; [done|]. split; [done|]. split; [|done]. intros ? ? [= <- <-]. done.
  - apply sound_same; eauto using evolves_refl. cbn. eauto.
  - apply sound_same; eauto using evolves_refl. cbn. split; [by eauto|]. split; [|done]. intros ? ? [= <- <-]. split; [by eexists|done].
  - assert (Hev : evolves h (set_b h (<[i:=b0]> (h_b h))) (PB i b)) by (apply (evolves_store h i b); [done..|cbn; set_solver]).
    split; [done|]. split; [|by eapply members_c|].
    + apply pointers_storeb; [done|by apply points_none|done].
    + assert (Hi : h_b (set_b h (<[i:=b0]> (h_b h))) !! i = Some b0) by (cbn; by rewrite list_lookup_insert by (by eapply lookup_lt_Some)).
      destruct (private _); cbn [dyn]; eauto using evolves_points. split; [by eexists|by eapply evolves_points].
  - pose proof (evolves_newb h b0 (PB i b)) as Hev. split; [done|]. split; [|by eapply members_c|].
    + apply pointers_newb; [done| |done]. unfold points. match goal with H : body_common b0 = body_common b |- _ => by rewrite H end.
    + cbn. split; [by apply lookup_app_l_Some|]. split; [by eapply evolves_points|]. match goal with H : kind_of b0 = kind_of b |- _ => rewrite <- H end. apply fresh_b.
  - apply sound_same; eauto using evolves_refl. cbn. split; [by eexists|done].
  - apply sound_same; eauto using evolves_emit. cbn. split; [by eexists|done].
  - apply sound_same; eauto using evolves_refl. cbn. split; [by eauto|]. split; [|split; [|done]]; intros ? ? [= <- <-]; [|done]. split; [by eexists|done].
  - apply sound_same; eauto using evolves_refl. cbn. split; [by eauto|]. split; [|done]. intros ? ? [= <- <-]. split; [by eexists|done].
  - apply sound_same; eauto using evolves_refl. destruct o as [[i b]|]; cbn; [|done]. by apply H1.
  - destruct Hok as (b9 & -> & Hk & Hc & Hw). destruct (H1 _ _ eq_refl) as [(b2 & Hb2 & Hk2) Hpt].
    assert (Hev : evolves h (set_b h (<[i:=b]> (h_b h))) (PC (Some (i, b9)) c d cur rs)) by (apply (evolves_store h i b2); [done|congruence|cbn; set_solver]).
    split; [done|]. split; [|by eapply members_c|].
    + apply pointers_storeb; [done| |done]. unfold points. by rewrite Hc.
    + cbn. split; [by eapply ev_cv|]. split; [|split; [intros ? ? Hdd; eapply evolves_kindat; [done|by apply H0]|done]].
      intros ? ? [= <- <-]. split; [eapply evolves_kindat; [done|by eexists]|by eapply evolves_points].
  - apply sound_same; eauto using evolves_refl. cbn. split; [done|]. split; [done|]. split; [done|]. by intros ? [= <-].
  - match goal with H : exists x, cur = Some x /\ _ |- _ => destruct H as (y & -> & Hbod & Hrd) end. specialize (H5 _ eq_refl).
    assert (Hev : evolves h (set_c h (<[c:=x0]> (h_c h))) (PC o c d (Some y) rs)) by (eapply evolves_storec; [done|cbn; set_solver]).
    assert (Hself : h_c (set_c h (<[c:=x0]> (h_c h))) !! c = Some x0) by (cbn; by rewrite list_lookup_insert by (by eapply lookup_lt_Some)).
    split; [done|]. split; [by eapply pointers_b| |].
    + intros c' x' j. cbn. intros [(-> & <- & _)|[_ Hc]]%list_lookup_insert_Some Hj; apply (evolves_kindat _ _ _ _ _ Hev); [|by eapply Hm].
      destruct (Hbod j Hj) as [->|Hj']; [by apply H2|by apply (Hm c' y)].
    + destruct (decide _); cbn.
      * split; [by eapply ev_cv|]. split; [intros i b Ho; destruct (H3 _ _ Ho); eauto using evolves_kindat, evolves_points|]. split; [done|]. by intros ? [= <-].
      * split; [by eapply ev_cv|]. intros i b Ho; destruct (H3 _ _ Ho); eauto using evolves_kindat, evolves_points.
  - apply sound_same; eauto using evolves_refl. destruct o as [[i b]|]; cbn; [|done]. by apply H0.
  - match goal with H : kindat h i _ |- _ => rename H into Hki end. match goal with H : points h b |- _ => rename H into Hpb end. destruct Hki as (b2 & Hb2 & Hk2).
    assert (Hev : evolves h (set_b h (<[i:=b0]> (h_b h))) (PD i b out d)) by (apply (evolves_store h i b2); [done|congruence|cbn; set_solver]).
    split; [done|]. split; [|by eapply members_c|].
    + apply pointers_storeb; [done| |done]. intros c0. match goal with H : body_common b0 = None \/ _ |- _ => destruct H as [-> | ->] end; [done|]. apply Hpb.
    + cbn. split; [eapply evolves_kindat; [done|by exists b2]|by eapply evolves_points].
Qed.

(** ** The locks *)
Lemma holds_nx P s X (a : act X) x : ok P s a -> forall l,
  l ∈ holds (nx s a x) <-> match a with Lock l' => l = l' \/ l ∈ holds s | Unlock l' => l ∈ holds s /\ l <> l' | _ => l ∈ holds s end.
Proof.
  intros Hok. destruct s; destruct a; cbn in Hok; try done;
    try match goal with l : lock |- _ => destruct l; try done end; destruct_and?; subst; cbn [nx holds]; intros l0; try set_solver.
  - destruct (private _); cbn; set_solver.
  - destruct o as [[i b]|]; cbn; [|set_solver]. rewrite ?elem_of_cons, ?elem_of_nil. naive_solver.
  - destruct H0 as (y & -> & _). destruct (decide _); cbn; set_solver.
  - destruct o as [[i b]|]; cbn; [|set_solver]. rewrite ?elem_of_cons, ?elem_of_nil. naive_solver.
Qed.

Lemma held_nx P s X (a : act X) x i : ok P s a -> MuB i ∈ holds (nx s a x) -> MuB i ∈ holds s \/ p_hd P = Some i.
Proof.
  intros Hok Hh. pose proof (proj1 (holds_nx P s X a x Hok (MuB i)) Hh) as Hl.
  destruct a; try (by left); [|by left; destruct Hl].
  destruct Hl as [<-|Hl]; [|by left]. right. destruct s; cbn in Hok; try done.
Qed.

(** ** The invariant *)
Definition tok h (s : ph) (x : tstate) : Prop :=
  match x with
  | Idle => s = PF None
  | Busy c m => keeps (par_of c) s m (stops (par_of c)) /\
      (s = P0 -> (forall i, p_hd (par_of c) = Some i -> is_Some (h_b h !! i)) \/ exists e, m = Panic e) /\
      (forall i, MuB i ∈ holds s -> p_hd (par_of c) = Some i)
  end.
Record binv cf (S : tid -> ph) : Prop := {
  bi_thr : forall t, tok (cf_h cf) (S t) (cf_t cf t);
  bi_so : forall t, sound (cf_h cf) (S t);
  bi_lock : forall l t, cf_l cf l = Some t <-> l ∈ holds (S t)
}.

Lemma binv_ext h L T K T' K' S S' : (forall t, T' t = T t) -> (forall t, S' t = S t) -> binv (Conf h L T K) S -> binv (Conf h L T' K') S'.
Proof. intros HT HS [H1 H2 H3]. split; cbn in *; intros; rewrite ?HT, ?HS; eauto. Qed.

Lemma lock_nx P s X (a : act X) x t L L' (S : tid -> ph) : ok P s a -> lock_step L t a = Some L' -> S t = s ->
  (forall l t, L l = Some t <-> l ∈ holds (S t)) -> forall l t', L' l = Some t' <-> l ∈ holds (<[t := nx s a x]> S t').
Proof.
  intros Hok HL Hs HI l t'. pose proof (holds_nx P s X a x Hok l) as Hh.
  destruct (decide (t = t')) as [<-|Hne].
  - rewrite fn_lookup_insert, Hh. clear Hh. subst s. destruct a; cbn in HL; simplify_eq; rewrite <- ?HI; try done.
    + destruct (L l0) eqn:Hl0; [done|]. simplify_eq. destruct (decide (l0 = l)) as [->|Hn].
      * rewrite fn_lookup_insert. naive_solver.
      * rewrite fn_lookup_insert_ne by done. naive_solver.
    + case_decide; [|done]. simplify_eq. destruct (decide (l0 = l)) as [->|Hn].
      * rewrite fn_lookup_insert. naive_solver.
      * rewrite fn_lookup_insert_ne by done. naive_solver.
  - rewrite fn_lookup_insert_ne by done. rewrite <- HI. destruct a; cbn in HL; simplify_eq; try done.
    + destruct (L l0) eqn:Hl0; [done|]. simplify_eq. destruct (decide (l0 = l)) as [->|Hn].
      * rewrite fn_lookup_insert. naive_solver.
      * rewrite fn_lookup_insert_ne by done. done.
    + case_decide; [|done]. simplify_eq. destruct (decide (l0 = l)) as [->|Hn].
      * rewrite fn_lookup_insert. naive_solver.
      * rewrite fn_lookup_insert_ne by done. done.
Qed.

Lemma nx_P0 P s X (a : act X) x : ok P s a -> nx s a x = P0 -> s = P0.
Proof.
  intros Hok. destruct s; [done| | | | | | | | | |]; destruct a; cbn in *; try done;
  repeat match goal with |- context [match ?e with _ => _ end] => destruct e end; try done; try (destruct o as [[]|]; done).
Qed.

Lemma tok_busy h s c X (a : act X) k : tok h s (Busy c (Do a k)) ->
  ok (par_of c) s a /\ (forall x, rok s a x -> keeps (par_of c) (nx s a x) (k x) (stops (par_of c))) /\
  (s = P0 -> forall i, p_hd (par_of c) = Some i -> is_Some (h_b h !! i)).
Proof. intros [(H1 & _ & H2) [H3 _]]. split; [done|]. split; [done|]. intros Hs. destruct (H3 Hs) as [?|[e He]]; [done|]. discriminate. Qed.

(** One action of one goroutine. *)
Lemma fine_step h L T K S t c X (a : act X) k L' h' x : binv (Conf h L T K) S -> T t = Busy c (Do a k) ->
  lock_step L t a = Some L' -> act_step E h a = Some (h', x) ->
  binv (Conf h' L' (<[t := Busy c (k x)]> T) K) (<[t := nx (S t) a x]> S).
Proof.
  intros [Ht Hso Hl] HT HL Ha. cbn in *.
  pose proof (Ht t) as Htt. rewrite HT in Htt. destruct (tok_busy _ _ _ _ _ _ Htt) as (Hok & Hk & Hhd). clear Htt.
  destruct (act_sound h h' (par_of c) (S t) X a x (Hso t) Hok Ha Hhd) as (Hr & Hev & Hso').
  assert (Hgrow : forall i, is_Some (h_b h !! i) -> is_Some (h_b h' !! i)).
  { intros i [b Hb]. destruct (ev_kind _ _ _ Hev i b Hb) as (b' & -> & _). eauto. }
  split; cbn.
  - intros t'. destruct (decide (t = t')) as [<-|Hne].
    + rewrite !fn_lookup_insert. split; [by apply Hk|]. split; [intros HP; left; intros i Hi; apply Hgrow, Hhd; [|done]; by eapply nx_P0|].
      intros i Hi. destruct (held_nx _ _ _ _ _ _ Hok Hi) as [Hi'|?]; [|done]. specialize (Ht t). rewrite HT in Ht. by apply Ht.
    + rewrite !fn_lookup_insert_ne by done. specialize (Ht t'). destruct (T t') as [|c' m']; [done|].
      destruct Ht as (H1 & H2 & H3). split; [done|]. split; [|done]. intros HP. destruct (H2 HP) as [H4|H4]; [left|by right]. eauto.
  - intros t'. destruct (decide (t = t')) as [<-|Hne].
    + by rewrite fn_lookup_insert.
    + rewrite fn_lookup_insert_ne by done. destruct Hso' as [Hp Hm _]. split; [done..|].
      eapply dyn_stable; [exact Hev| |apply Hso]. intros l H1 H2. apply Hne. apply Hl in H1, H2. congruence.
  - by eapply lock_nx.
Qed.

Lemma alloc_is {A} h (a : act A) h' x L t : alloc_step E h a = Some (h', x) -> act_step E h a = Some (h', x) /\ lock_step L t a = Some L.
Proof. destruct a; cbn; naive_solver. Qed.

Lemma allocs_binv h L K t c m : forall T S h1 m1, binv (Conf h L T K) S -> T t = Busy c m -> allocs E h m = (h1, m1) ->
  exists s, binv (Conf h1 L (<[t := Busy c m1]> T) K) (<[t := s]> S).
Proof.
  assert (Hself : forall (T : tid -> tstate) S m, T t = Busy c m -> binv (Conf h L T K) S -> exists s, binv (Conf h L (<[t := Busy c m]> T) K) (<[t := s]> S)).
  { intros T S m1 HT HI. exists (S t). eapply binv_ext; [| |exact HI]; intros t'; (destruct (decide (t = t')) as [<-|Hne]; [by rewrite fn_lookup_insert|by rewrite fn_lookup_insert_ne]). }
  revert h Hself. induction m as [r|e| |X a k IH]; intros h Hself T S h1 m1 HI HT; cbn [allocs].
  1-3: intros [= <- <-]; by apply Hself.
  destruct (alloc_step E h a) as [[h' x]|] eqn:Ha; [|intros [= <- <-]; by apply Hself].
  intros Hal. destruct (alloc_is _ _ _ _ L t Ha) as [Hst HL].
  pose proof (fine_step _ _ _ _ _ _ _ _ _ _ _ _ _ HI HT HL Hst) as HI'.
  destruct (IH x h') with (T := <[t:=Busy c (k x)]> T) (S := <[t:=nx (S t) a x]> S) (h1 := h1) (m1 := m1) as [s Hs]; [|done|by rewrite fn_lookup_insert|done|].
  { intros T' S' m' HT' HI2. exists (S' t). eapply binv_ext; [| |exact HI2]; intros t'; (destruct (decide (t = t')) as [<-|Hne]; [by rewrite fn_lookup_insert|by rewrite fn_lookup_insert_ne]). }
  exists s. eapply binv_ext; [| |exact Hs]; intros t'; (destruct (decide (t = t')) as [<-|Hne]; [by rewrite !fn_lookup_insert|by rewrite !fn_lookup_insert_ne]).
Qed.

Lemma idle_holds s : idle s -> holds s = [].
Proof. by destruct s. Qed.

Theorem binv_step cf S e cf' : binv cf S -> cstep E fuel cf e cf' -> exists S', binv cf' S'.
Proof.
  intros HI Hstep. destruct cf as [h L T K]. destruct Hstep as [t c HT Hu|t c m h1 X a k L' h2 x HT Hal HL Ha|t c m h1 m1 o HT Hal Ho]; cbn in *.
  - exists (<[t := P0]> S). destruct HI as [H1 H2 H3]. cbn in *. specialize (H1 t) as Ht. rewrite HT in Ht. cbn in Ht. split; cbn.
    + intros t'. destruct (decide (t = t')) as [<-|Hne]; [|rewrite !fn_lookup_insert_ne by done; apply H1].
      rewrite !fn_lookup_insert. split; [apply keeps_cmd|]. split; [|cbn; set_solver]. intros _. destruct c; cbn; try (left; by intros).
      destruct (h_b h !! i) eqn:Hb; [left; intros ? [= <-]; eauto|right; eauto].
    + intros t'. destruct (decide (t = t')) as [<-|Hne]; [|rewrite fn_lookup_insert_ne by done; apply H2].
      rewrite fn_lookup_insert. destruct (H2 t) as [Hp Hm _]. by split.
    + intros l t'. rewrite H3. destruct (decide (t = t')) as [<-|Hne]; [|by rewrite fn_lookup_insert_ne].
      by rewrite fn_lookup_insert, Ht.
  - destruct (allocs_binv _ _ _ _ _ _ _ _ _ _ HI HT Hal) as [s Hs].
    pose proof (fine_step _ _ _ _ _ t _ _ _ _ _ _ _ Hs ltac:(by rewrite fn_lookup_insert) HL Ha) as HI'.
    eexists. eapply binv_ext; [| |exact HI']; [|done]. intros t'. destruct (decide (t = t')) as [<-|Hne]; [by rewrite !fn_lookup_insert|by rewrite !fn_lookup_insert_ne].
  - destruct (allocs_binv _ _ _ _ _ _ _ _ _ _ HI HT Hal) as [s [H1 H2 H3]]. cbn in *. exists (<[t := PF None]> S).
    assert (Hst : holds s = []).
    { specialize (H1 t). rewrite !fn_lookup_insert in H1. destruct H1 as [H1 _]. destruct m1; try done; destruct H1 as [H1 _]; by apply idle_holds. }
    split; cbn.
    + intros t'. specialize (H1 t'). destruct (decide (t = t')) as [<-|Hne]; [by rewrite !fn_lookup_insert|by rewrite !fn_lookup_insert_ne in * by done].
    + intros t'. specialize (H2 t'). destruct (decide (t = t')) as [<-|Hne]; [|by rewrite fn_lookup_insert_ne in * by done].
      rewrite fn_lookup_insert in *. destruct H2 as [Hp Hm _]. by split.
    + intros l t'. rewrite H3. destruct (decide (t = t')) as [<-|Hne]; [|by rewrite !fn_lookup_insert_ne].
      by rewrite !fn_lookup_insert, Hst.
Qed.

Lemma binv_start w : binv (start w) (fun _ => PF None).
Proof.
  split; cbn; try done; [|by intros; rewrite elem_of_nil].
  - split; [| |done].
    + intros i b Hb. cbn in Hb. apply list_lookup_singleton_Some in Hb as [_ <-]. done.
    + intros c x j Hc. done.
Qed.

Theorem binv_steps w evs cf : csteps E fuel (start w) evs cf -> exists S, binv cf S.
Proof.
  intros H. induction H as [|evs cf1 e cf2 _ [S HS] Hs]; [exists (fun _ => PF None); apply binv_start|]. by eapply binv_step.
Qed.
End Inv.
