(** * New Bodies are private, and every Reader has one owner (proof infrastructure) *)
From Coq Require Import ZifyBool.
From Verif Require Import Wf.
From Verif Require Export ConcInv.

Section Fresh.
Context {W : Type} (E : env W) (fuel : nat).
Implicit Types h : heap W.
Implicit Types cf : conf W.

Definition cm h (j : nat) : option nat := h_b h !! j ≫= body_common.

(** More of what a goroutine in a phase knows. *)
Definition lfact h (s : ph) : Prop :=
  match s with
  | PM c _ j _ => cm h j = Some c
  | PG _ b j => cm h j = body_common b
  | PE _ b _ => kind_of b <> KBuffered
  | PC o c d _ _ => (forall j k, d = Some (j, k) -> cm h j = Some c) /\
      (forall i b, o = Some (i, b) -> kind_of b = KBuffered -> cm h i = Some c /\ body_common b = Some c)
  | PD i b true _ => kind_of b = KBuffered -> forall c x, h_c h !! c = Some x -> i ∉ bodies_of x
  | _ => True
  end.

Record finv cf (S : tid -> ph) : Prop := {
  fi_zero : closedSingleton ∈ cf_k cf;
  fi_uses : forall t c m i, cf_t cf t = Busy c m -> i ∈ p_known (par_of c) -> i ∈ cf_k cf;
  fi_held : forall t i, MuB i ∈ holds (S t) -> i ∈ cf_k cf;
  fi_fresh : forall t j, fr (S t) = Some j -> j ∉ cf_k cf /\ forall t', fr (S t') = Some j -> t' = t;
  fi_known : forall i, i ∈ cf_k cf -> is_Some (h_b (cf_h cf) !! i);
  fi_made : forall t j, fr (S t) = Some j -> is_Some (h_b (cf_h cf) !! j);
  fi_loc : forall t, lfact (cf_h cf) (S t);
  fi_mem : forall c x j, h_c (cf_h cf) !! c = Some x -> j ∈ bodies_of x -> cm (cf_h cf) j = Some c
}.

Lemma finv_ext h L T K T' L' S S' : (forall t, T' t = T t) -> (forall t, S' t = S t) -> finv (Conf h L T K) S -> finv (Conf h L' T' K) S'.
Proof.
  intros HT HS [H1 H2 H3 H4 H5 H6 H7 H8]. split; cbn in *; eauto.
  - intros t c m i. rewrite HT. eauto.
  - intros t i. rewrite HS. eauto.
  - intros t j. rewrite HS. intros Hj. destruct (H4 t j Hj) as [H9 H10]. split; [done|]. intros t'. rewrite HS. eauto.
  - intros t j. rewrite HS. eauto.
  - intros t. by rewrite HS.
Qed.

(** *** Which handles appear *)
Definition newb {X} (a : act X) : X -> option nat := match a in act X return X -> option nat with NewB _ => Some | _ => fun _ => None end.
Lemma fr_nx P s X (a : act X) x j : ok P s a -> fr (nx s a x) = Some j -> fr s = Some j \/ (fr s = None /\ newb a x = Some j).
Proof.
  intros Hok Hfr. destruct s; destruct a; cbn in Hok; try done; try match goal with l : lock |- _ => destruct l; try done end; cbn in *; eauto.
  all: repeat match goal with H : context [match ?e with _ => _ end] |- _ => destruct e; cbn in *; try done; eauto end.
  all: destruct o as [[? ?]|]; cbn in Hfr; by left.
Qed.
Lemma hd_known c i : p_hd (par_of c) = Some i -> i ∈ p_known (par_of c).
Proof. destruct c; cbn; try done. intros [= <-]. set_solver. Qed.

Lemma cm_b h h' s j : evolves h h' s -> MuB j ∉ holds s -> is_Some (h_b h !! j) -> cm h' j = cm h j.
Proof. intros Hev Hn [b Hb]. unfold cm. by rewrite Hb, (ev_b _ _ _ Hev _ _ Hb Hn). Qed.

(** The members of the shared objects after an action. *)
Lemma bodies_step h h' P s X (a : act X) x : sound h s -> ok P s a -> act_step E h a = Some (h', x) ->
  forall c y j, h_c h' !! c = Some y -> j ∈ bodies_of y -> (exists y0, h_c h !! c = Some y0 /\ j ∈ bodies_of y0) \/
    (exists o cur rs, s = PC o c (Some (j, KBuffered)) cur rs /\ forall i, h_b h' !! i = h_b h !! i).
Proof.
  intros [Hp Hm Hd] Hok Ha c y j Hy Hj.
  assert (Hsame : h_c h' = h_c h -> (exists y0, h_c h !! c = Some y0 /\ j ∈ bodies_of y0) \/ (exists o cur rs, s = PC o c (Some (j, KBuffered)) cur rs /\ forall i, h_b h' !! i = h_b h !! i))
    by (intros Hc; left; exists y; by rewrite <- Hc).
  destruct a; cbn in Ha;
    repeat match type of Ha with
    | context [let '(_, _) := ?e in _] => destruct e as [? ?]
    | match ?e with Some _ => _ | None => _ end = _ => destruct e eqn:?; [|done]
    end; injection Ha as <- <-; try (by apply Hsame).
  - destruct s; cbn in Hok; try done. destruct Hok as (-> & y0 & -> & Hb & _). destruct Hd as (_ & _ & _ & Hc). specialize (Hc _ eq_refl).
    cbn in Hy. apply list_lookup_insert_Some in Hy as [(<- & <- & _)|[_ Hy]]; [|left; eauto].
    destruct (Hb j Hj) as [->|Hj']; [right; eauto 10|left; eauto].
  - destruct s; cbn in Hok; try done. cbn in Hy. apply lookup_app_Some in Hy as [Hy|[_ Hy]]; [left; eauto|].
    apply list_lookup_singleton_Some in Hy as [_ <-]. destruct Hok as (_ & Hok & _). by rewrite Hok, elem_of_nil in Hj.
Qed.

Lemma lfact_stable h h' s s' P X (a : act X) x (K : list nat) : sound h s -> sound h s' -> ok P s a -> act_step E h a = Some (h', x) -> evolves h h' s ->
  (forall l, l ∈ holds s -> l ∉ holds s') -> (forall i, MuB i ∈ holds s -> i ∈ K) -> (forall i, MuB i ∈ holds s' -> i ∈ K) ->
  (forall j, fr s = Some j -> j ∉ K) -> (forall j, fr s' = Some j -> j ∉ K) -> (forall j, fr s' = Some j -> is_Some (h_b h !! j)) ->
  lfact h s' -> lfact h' s'.
Proof.
  intros Hso Hso' Hok Ha Hev Hdis Hk Hk' Hf Hf' Hm.
  assert (Hfr : forall j, fr s' = Some j -> cm h' j = cm h j).
  { intros j Hj. eapply cm_b; [done| |by apply Hm]. intros Hn. by apply (Hf' j Hj), Hk. }
  destruct s'; cbn [lfact]; try done.
  - intros <-. by apply Hfr.
  - intros <-. by apply Hfr.
  - intros [H1 H2]. split.
    + intros j k ->. rewrite Hfr by done. by eapply H1.
    + intros i b -> Hb. destruct (H2 i b eq_refl Hb) as [H3 H4]. split; [|done]. rewrite <- H3. eapply cm_b; [done| |].
      * intros Hn. apply (Hdis _ Hn). cbn. set_solver.
      * destruct (so_d _ _ Hso') as (_ & H5 & _). destruct (H5 i b eq_refl) as [(b2 & -> & _) _]. eauto.
  - destruct out; [|done]. intros H Hb c0 y Hy Hi.
    destruct (bodies_step _ _ _ _ _ _ _ Hso Hok Ha _ _ _ Hy Hi) as [(y0 & H1 & H2)|(o & cur & rs & -> & _)]; [by eapply H|].
    apply (Hf i eq_refl), Hk'. cbn. set_solver.
Qed.

Lemma lfact_self h h' P s X (a : act X) x : sound h s -> sound h' (nx s a x) -> ok P s a -> act_step E h a = Some (h', x) -> evolves h h' s ->
  (forall c y j, h_c h !! c = Some y -> j ∈ bodies_of y -> cm h j = Some c) ->
  (forall i j, MuB i ∈ holds s -> fr s = Some j -> i <> j) ->
  lfact h s -> lfact h' (nx s a x).
Proof.
  intros Hso Hso' Hok Ha Hev Hmem Hij Hl. destruct Hso as [Hp Hm Hd].
  assert (Hso : sound h s) by done.
  destruct s; destruct a; cbn in Hok; try done; cbn [act_step] in Ha; cbn [dyn] in Hd; cbn [lfact] in Hl;
    repeat match type of Ha with
    | context [let '(_, _) := ?e in _] => destruct e as [? ?]
    | match ?e with Some _ => _ | None => _ end = _ => destruct e eqn:?; [|done]
    end; injection Ha as <- <-; try done.
  all: try match goal with l : lock |- _ => destruct l; try done end; try (destruct_and? Hok); try (destruct_and? Hd); subst; cbn [nx]; try done.
  - (* NewB in PN *) cbn. unfold cm. cbn. by rewrite lookup_app_r, Nat.sub_diag by done.
  - (* PM *) split; [|done]. by intros ? ? [= <- <-].
  - (* PB Lock *) split; [done|]. intros ? ? [= <- <-] _. unfold cm. by rewrite H.
  - destruct (private _); cbn; [done|]. done.
  - cbn. unfold cm. cbn. rewrite lookup_app_r, Nat.sub_diag by done. done.
  - (* PG Lock *) split; [|]; intros ? ? [= <- <-]; [congruence|]. intros _. unfold cm. by rewrite H.
  - split; [done|]. by intros ? ? [= <- <-] ?.
  - destruct o as [[i b]|]; cbn; [|done]. destruct cur as [y|]; [|done]. destruct (bool_decide _) eqn:Hbd; [|done].
    apply bool_decide_eq_true in Hbd. intros Hk c' x' Hc' Hi. apply Hbd.
    destruct Hl as [_ Hl]. destruct (Hl _ _ eq_refl Hk) as [H4 _]. specialize (Hmem _ _ _ Hc' Hi). assert (c' = c) as -> by congruence.
    specialize (H3 _ eq_refl). congruence.
  - destruct Hok as (b9 & -> & Hk & Hc & _). destruct Hl as [Hl1 Hl2]. split.
    + intros j k ->. rewrite <- (Hl1 _ _ eq_refl). unfold cm. cbn. rewrite list_lookup_insert_ne; [done|].
      apply Hij; [cbn; set_solver|done].
    + intros ? ? [= <- <-] Hkb. destruct (Hl2 _ _ eq_refl Hkb) as [H4 H5]. split; [|done]. unfold cm. cbn.
      rewrite list_lookup_insert by (by eapply lookup_lt_Some). cbn. congruence.
  - destruct cur as [y|]; [|done]. destruct (decide _); done.
  - destruct o as [[i b]|]; done.
Qed.

Lemma mem_step h h' P s X (a : act X) x : sound h s -> ok P s a -> act_step E h a = Some (h', x) -> evolves h h' s -> lfact h s ->
  (forall c y j, h_c h !! c = Some y -> j ∈ bodies_of y -> cm h j = Some c) ->
  forall c y j, h_c h' !! c = Some y -> j ∈ bodies_of y -> cm h' j = Some c.
Proof.
  intros Hso Hok Ha Hev Hl Hmem c y j Hy Hj.
  destruct (bodies_step _ _ _ _ _ _ _ Hso Hok Ha _ _ _ Hy Hj) as [(y0 & H1 & H2)|(o & cur & rs & -> & Hsame)].
  2:{ unfold cm. rewrite Hsame. destruct Hl as [Hl _]. by eapply Hl. }
  specialize (Hmem _ _ _ H1 H2). destruct (so_m _ _ Hso _ _ _ H1 H2) as (bj & Hbj & Hkj).
  destruct (decide (MuB j ∈ holds s)) as [Hh|Hh]; [|rewrite <- Hmem; eapply cm_b; eauto].
  assert (Hsame : h_b h' = h_b h -> cm h' j = Some c) by (intros He; unfold cm; by rewrite He).
  destruct Hso as [Hp Hm Hd].
  destruct a; cbn in Ha;
    repeat match type of Ha with
    | context [let '(_, _) := ?e in _] => destruct e as [? ?]
    | match ?e with Some _ => _ | None => _ end = _ => destruct e eqn:?; [|done]
    end; injection Ha as <- <-; try (by apply Hsame).
  - destruct s; cbn in Hok; try done; cbn in Hd, Hl, Hh.
    + destruct Hok as (-> & Hk & Hc & Hn & _). exfalso. assert (j = i0) as -> by set_solver. destruct Hd as [Hd _]. congruence.
    + destruct Hok as (b9 & -> & Hk & Hc & _). assert (j = i) as -> by set_solver.
      destruct Hd as (_ & Hd & _). destruct (Hd _ _ eq_refl) as [(b2 & Hb2 & Hk2) _].
      destruct (proj2 Hl _ _ eq_refl) as [H4 H5]; [congruence|].
      unfold cm. cbn. rewrite list_lookup_insert by (by eapply lookup_lt_Some). cbn. congruence.
    + destruct Hok as (-> & Hk & Hc & Ho & _). assert (j = i0) as -> by set_solver. exfalso.
      destruct Hd as [(b2 & Hb2 & Hk2) _]. rewrite Ho in Hl by congruence. eapply Hl; [congruence|done|done].
  - unfold cm in *. cbn. rewrite lookup_app_l by (by eapply lookup_lt_Some). done.
Qed.

Lemma grows h h' s : evolves h h' s -> forall i, is_Some (h_b h !! i) -> is_Some (h_b h' !! i).
Proof. intros Hev i [b Hb]. destruct (ev_kind _ _ _ Hev i b Hb) as (b' & -> & _). eauto. Qed.

Lemma fine_step_f h L T K S t c X (a : act X) k L' h' x : binv (Conf h L T K) S -> finv (Conf h L T K) S -> T t = Busy c (Do a k) ->
  lock_step L t a = Some L' -> act_step E h a = Some (h', x) ->
  finv (Conf h' L' (<[t := Busy c (k x)]> T) K) (<[t := nx (S t) a x]> S).
Proof.
  intros HB HF HT HL Ha. pose proof (fine_step _ _ _ _ _ _ _ _ _ _ _ _ _ _ HB HT HL Ha) as HB'.
  destruct HB as [Ht Hso Hl]. destruct HF as [F1 F2 F3 F4 F5 F6 F7 F8]. cbn in *.
  pose proof (Ht t) as Htt. rewrite HT in Htt. destruct (tok_busy _ _ _ _ _ _ Htt) as (Hok & Hk & Hhd). clear Htt.
  destruct (act_sound E h h' (par_of c) (S t) X a x (Hso t) Hok Ha Hhd) as (Hr & Hev & Hso').
  pose proof (grows _ _ _ Hev) as Hg.
  assert (Hnew : forall j, newb a x = Some j -> h_b h !! j = None /\ is_Some (h_b h' !! j)).
  { intros j Hj. destruct a; cbn in Hj; try done. injection Hj as <-. cbn in Ha. injection Ha as <- <-. split; [by apply lookup_ge_None|].
    cbn. rewrite lookup_app_r, Nat.sub_diag by done. by eexists. }
  assert (Hfr : forall t' j, fr (<[t:=nx (S t) a x]> S t') = Some j -> fr (S t') = Some j \/ (t' = t /\ newb a x = Some j)).
  { intros t' j. destruct (decide (t = t')) as [<-|Hne]; [|rewrite fn_lookup_insert_ne by done; by left].
    rewrite fn_lookup_insert. intros Hj. destruct (fr_nx _ _ _ _ _ _ Hok Hj) as [?|[_ ?]]; auto. }
  split; cbn.
  - done.
  - intros t' c' m' i. destruct (decide (t = t')) as [<-|Hne]; [rewrite fn_lookup_insert; intros [= <- <-]; by eapply F2|rewrite fn_lookup_insert_ne by done; by eapply F2].
  - intros t' i. destruct (decide (t = t')) as [<-|Hne]; [rewrite fn_lookup_insert|rewrite fn_lookup_insert_ne by done; by eapply F3].
    intros Hh. destruct (held_nx _ _ _ _ _ _ Hok Hh) as [?|?]; [by eapply F3|]. eapply F2; [exact HT|by apply hd_known].
  - intros t' j Hj. destruct (Hfr _ _ Hj) as [Hj'|[-> Hj']].
    + destruct (F4 _ _ Hj') as [H1 H2]. split; [done|]. intros t2 Hj2. destruct (Hfr _ _ Hj2) as [Hj2'|[-> Hj2']]; [by apply H2|].
      exfalso. destruct (F6 _ _ Hj') as [b Hb]. destruct (Hnew _ Hj2'). congruence.
    + destruct (Hnew _ Hj') as [Hn _]. split.
      * intros Hin. destruct (F5 _ Hin) as [b Hb]. congruence.
      * intros t2 Hj2. destruct (Hfr _ _ Hj2) as [Hj2'|[-> Hj2']]; [|done]. exfalso. destruct (F6 _ _ Hj2') as [b Hb]. congruence.
  - eauto.
  - intros t' j Hj. destruct (Hfr _ _ Hj) as [Hj'|[-> Hj']]; [eauto|]. by apply Hnew.
  - intros t'. destruct (decide (t = t')) as [<-|Hne].
    + rewrite fn_lookup_insert. eapply lfact_self; eauto. intros i j H1 H2 ->. eapply F4; [exact H2|]. by eapply F3.
    + rewrite fn_lookup_insert_ne by done. eapply (lfact_stable h h' (S t) (S t') _ _ _ _ K); eauto.
      * intros l H1 H2. apply Hne. apply Hl in H1, H2. congruence.
      * intros j Hj. by apply (F4 t).
      * intros j Hj. by apply (F4 t').
  - eapply (mem_step h h' _ (S t)); eauto.
Qed.

(** ** The owner of a Reader *)
Record oinv cf (S : tid -> ph) (O : rid -> option (tid + nat)) : Prop := {
  ow_c : forall c x r, h_c (cf_h cf) !! c = Some x -> r ∈ readers_of x -> O r = Some (inr c);
  ow_0 : forall t c m r, S t = P0 -> cf_t cf t = Busy c m -> p_rd (par_of c) = Some r -> O r = Some (inl t);
  ow_r : forall t o c d cur rs r, S t = PC o c d cur rs -> r ∈ rs -> O r = Some (inr c)
}.
Lemma oinv_ext h L T K T' L' K' S S' O : (forall t, T' t = T t) -> (forall t, S' t = S t) -> oinv (Conf h L T K) S O -> oinv (Conf h L' T' K') S' O.
Proof.
  intros HT HS [H1 H2 H3]. split; cbn in *; eauto.
  - intros t c m r. rewrite HT, HS. eauto.
  - intros t o c d cur rs r. rewrite HS. eauto.
Qed.

Definition gone {X} (P : par) (s : ph) (a : act X) : X -> option (rid * nat) :=
  match s, p_rd P with
  | P0, Some r => match a in act X return X -> option (rid * nat) with NewC _ => fun c => Some (r, c) | _ => fun _ => None end
  | _, _ => fun _ => None
  end.
Definition owners (O : rid -> option (tid + nat)) (g : option (rid * nat)) : rid -> option (tid + nat) :=
  match g with Some (r, c) => <[r := Some (inr c)]> O | None => O end.

Lemma fine_step_o h L T K S O t c X (a : act X) k L' h' x : binv (Conf h L T K) S -> oinv (Conf h L T K) S O -> T t = Busy c (Do a k) ->
  lock_step L t a = Some L' -> act_step E h a = Some (h', x) ->
  oinv (Conf h' L' (<[t := Busy c (k x)]> T) K) (<[t := nx (S t) a x]> S) (owners O (gone (par_of c) (S t) a x)).
Proof.
  intros HB HO HT HL Ha. destruct HB as [Ht Hso Hl]. destruct HO as [O1 O2 O3]. cbn in *.
  pose proof (Ht t) as Htt. rewrite HT in Htt. destruct (tok_busy _ _ _ _ _ _ Htt) as (Hok & Hk & Hhd). clear Htt.
  set (g := gone (par_of c) (S t) a x).
  assert (Hg : forall r c', g = Some (r, c') -> S t = P0 /\ p_rd (par_of c) = Some r /\ nx (S t) a x = PN c' (match a with NewC y => y | _ => CBuffered {| bc_r := None; bc_err := None; bc_bodies := None; bc_bytes := []; bc_length := 0; bc_start := 0; bc_refcnt := 0 |} end)).
  { subst g. unfold gone. intros r c'. destruct (S t); try done. destruct (p_rd (par_of c)); [|done]. destruct a; try done. by intros [= <- <-]. }
  assert (Hother : forall r o, O r = Some o -> o <> inl t -> owners O g r = Some o).
  { intros r o Hr Hn. unfold owners. destruct g as [[r' c']|] eqn:Hgg; [|done]. destruct (Hg _ _ eq_refl) as (HP & Hp & _).
    destruct (decide (r' = r)) as [->|Hne]; [|by rewrite fn_lookup_insert_ne]. exfalso. apply Hn. specialize (O2 _ _ _ _ HP HT Hp). congruence. }
  split; cbn.
  - intros c' y r Hy Hr.
    assert (Hold : forall y0, h_c h !! c' = Some y0 -> r ∈ readers_of y0 -> owners O g r = Some (inr c')) by (intros; apply Hother; eauto).
    assert (Hsame : h_c h' = h_c h -> owners O g r = Some (inr c')) by (intros He; rewrite He in Hy; eauto).
    destruct a; cbn in Ha;
    repeat match type of Ha with
    | context [let '(_, _) := ?e in _] => destruct e as [? ?]
    | match ?e with Some _ => _ | None => _ end = _ => destruct e eqn:?; [|done]
    end; injection Ha as <- <-; try (by apply Hsame).
    + destruct (S t) eqn:HS; cbn in Hok; try done. destruct Hok as (-> & y0 & -> & _ & Hrr).
      cbn in Hy. apply list_lookup_insert_Some in Hy as [(<- & <- & _)|[_ Hy]]; [|eauto].
      destruct (Hso t) as [_ _ Hd]. rewrite HS in Hd. destruct Hd as (_ & _ & _ & Hc). eauto.
    + destruct (S t) eqn:HS; cbn in Hok; try done. cbn in Hy. apply lookup_app_Some in Hy as [Hy|[Hlen Hy]]; [eauto|].
      apply list_lookup_singleton_Some in Hy as [Hcc <-]. destruct Hok as [Hok _]. specialize (Hok _ Hr).
      subst g. unfold gone. cbn [par_of p_rd]. rewrite Hok. cbn. rewrite fn_lookup_insert. do 2 f_equal. lia.
  - intros t' c' m' r HP HT' Hp. destruct (decide (t = t')) as [<-|Hne].
    + rewrite fn_lookup_insert in HP. rewrite fn_lookup_insert in HT'. injection HT' as <- <-.
      assert (g = None) as -> by (destruct g as [[r' c']|] eqn:Hgg; [destruct (Hg _ _ eq_refl) as (_ & _ & Hn); congruence|done]).
      eapply O2; [|done..]. by eapply nx_P0.
    + rewrite fn_lookup_insert_ne in HP by done. rewrite fn_lookup_insert_ne in HT' by done. apply Hother; [by eapply O2|]. congruence.
  - intros t' o c' d cur rs r HP Hr. destruct (decide (t = t')) as [<-|Hne].
    2:{ rewrite fn_lookup_insert_ne in HP by done. apply Hother; [by eapply O3|done]. }
    rewrite fn_lookup_insert in HP. apply Hother; [|done]. destruct (S t) eqn:HS; destruct a; cbn in Hok; try done; cbn in HP; try done.
    all: repeat match type of HP with
         | released ?o _ _ = _ => destruct o as [[? ?]|]; try done
         | context [match ?e with _ => _ end] => destruct e; try done
         end; injection HP as; subst; try (by apply elem_of_nil in Hr); try (by eapply O3).
    apply elem_of_app in Hr as [Hr|Hr]; [|by eapply O3].
    cbn in Ha. match type of Ha with match ?e with Some _ => _ | None => _ end = _ => destruct e eqn:? end; [|done]. injection Ha as <- <-. by eapply O1.
Qed.
Lemma owners_dom O g r : (forall r' c, g = Some (r', c) -> is_Some (O r')) -> is_Some (owners O g r) -> is_Some (O r).
Proof.
  intros Hg. unfold owners. destruct g as [[r' c]|]; [|done]. destruct (decide (r' = r)) as [->|Hne]; [eauto|by rewrite fn_lookup_insert_ne].
Qed.

(** ** The whole invariant *)
Lemma made_snoc evs e : made (evs ++ [e]) = made evs ++ match e with Inv _ c => option_list (reader_made c) | Fin _ _ => [] end.
Proof. unfold made. rewrite flat_map_app. f_equal. cbn. rewrite app_nil_r. by destruct e as [? []|]. Qed.

Record cinv (R : list rid) cf (S : tid -> ph) (O : rid -> option (tid + nat)) : Prop := {
  ci_b : binv cf S; ci_f : finv cf S; ci_o : NoDup R -> oinv cf S O; ci_d : forall r, is_Some (O r) -> r ∈ R
}.

Lemma cinv_ext R h L T K T' S S' O : (forall t, T' t = T t) -> (forall t, S' t = S t) -> cinv R (Conf h L T K) S O -> cinv R (Conf h L T' K) S' O.
Proof. intros HT HS [H1 H2 H3 H4]. split; [by eapply binv_ext|by eapply finv_ext|intros; eapply oinv_ext; eauto|done]. Qed.
Lemma upd_same {A} (f : tid -> A) t x : f t = x -> forall t', <[t := x]> f t' = f t'.
Proof. intros <- t'. destruct (decide (t = t')) as [<-|Hne]; [by rewrite fn_lookup_insert|by rewrite fn_lookup_insert_ne]. Qed.
Lemma upd_twice {A} (f : tid -> A) t x y : forall t', <[t := y]> (<[t := x]> f) t' = <[t := y]> f t'.
Proof. intros t'. destruct (decide (t = t')) as [<-|Hne]; [by rewrite !fn_lookup_insert|by rewrite !fn_lookup_insert_ne]. Qed.

(** One action of one goroutine keeps everything. *)
Lemma cinv_fine R h L T K S O t c X (a : act X) k L' h' x : cinv R (Conf h L T K) S O -> T t = Busy c (Do a k) ->
  (forall r, p_rd (par_of c) = Some r -> r ∈ R) ->
  lock_step L t a = Some L' -> act_step E h a = Some (h', x) ->
  cinv R (Conf h' L' (<[t := Busy c (k x)]> T) K) (<[t := nx (S t) a x]> S) (owners O (gone (par_of c) (S t) a x)).
Proof.
  intros [H1 H2 H3 H4] HT Hrd HL Ha. split; [by eapply fine_step|by eapply fine_step_f|intros HN; eapply fine_step_o; eauto|].
  intros r. unfold owners. destruct (gone _ _ _ _) as [[r' c']|] eqn:Hg; [|apply H4].
  destruct (decide (r' = r)) as [<-|Hne]; [|rewrite fn_lookup_insert_ne by done; apply H4]. intros _. apply Hrd.
  unfold gone in Hg. destruct (S t); try done. destruct (p_rd (par_of c)); [|done]. destruct a; try done. by injection Hg as <- <-.
Qed.

Lemma cinv_allocs R L K t c m : (forall r, p_rd (par_of c) = Some r -> r ∈ R) -> forall h T S O h1 m1, cinv R (Conf h L T K) S O -> T t = Busy c m -> allocs E h m = (h1, m1) ->
  exists s O', cinv R (Conf h1 L (<[t := Busy c m1]> T) K) (<[t := s]> S) O'.
Proof.
  intros Hrd.
  assert (Hself : forall h (T : tid -> tstate) S O m, T t = Busy c m -> cinv R (Conf h L T K) S O -> exists s O', cinv R (Conf h L (<[t := Busy c m]> T) K) (<[t := s]> S) O').
  { intros h T S O m1 HT HI. exists (S t), O. eapply cinv_ext; [by apply upd_same|by apply upd_same|exact HI]. }
  induction m as [r|e| |X a k IH]; intros h T S O h1 m1 HI HT; cbn [allocs].
  1-3: intros [= <- <-]; by eapply Hself.
  destruct (alloc_step E h a) as [[h' x]|] eqn:Ha; [|intros [= <- <-]; by eapply Hself].
  intros Hal. destruct (alloc_is E _ _ _ _ L t Ha) as [Hst HL].
  pose proof (cinv_fine _ _ _ _ _ _ _ _ _ _ _ _ _ _ _ HI HT Hrd HL Hst) as HI'.
  destruct (IH _ _ _ _ _ _ _ HI' (fn_lookup_insert _ _ _) Hal) as (s & O' & Hs).
  exists s, O'. eapply cinv_ext; [| |exact Hs]; intros t'; by rewrite upd_twice.
Qed.

(** A call begins; a call ends. *)
Lemma call_b h L T K S t c : binv (Conf h L T K) S -> T t = Idle -> binv (Conf h L (<[t := Busy c (cmd_prog fuel h c)]> T) K) (<[t := P0]> S).
Proof.
  intros [B1 B2 B3] HT. cbn in *. assert (Ht : S t = PF None) by (specialize (B1 t); by rewrite HT in B1). split; cbn.
  - intros t'. destruct (decide (t = t')) as [<-|Hne]; [|rewrite !fn_lookup_insert_ne by done; apply B1].
    rewrite !fn_lookup_insert. split; [apply keeps_cmd|]. split; [|cbn; set_solver]. intros _. destruct c; cbn; try (left; by intros).
    destruct (h_b h !! i) eqn:Hb; [left; intros ? [= <-]; eauto|right; eauto].
  - intros t'. destruct (decide (t = t')) as [<-|Hne]; [|rewrite fn_lookup_insert_ne by done; apply B2].
    rewrite fn_lookup_insert. destruct (B2 t) as [Hp Hmm _]. by split.
  - intros l t'. rewrite B3. destruct (decide (t = t')) as [<-|Hne]; [|by rewrite fn_lookup_insert_ne].
    by rewrite fn_lookup_insert, Ht.
Qed.
Lemma call_f h L T K S t c m : finv (Conf h L T K) S -> Forall (fun i => i ∈ K) (uses c) -> finv (Conf h L (<[t := Busy c m]> T) K) (<[t := P0]> S).
Proof.
  intros [F1 F2 F3 F4 F5 F6 F7 F8] Hu. cbn in *.
  assert (Hfr : forall t' j, fr (<[t:=P0]> S t') = Some j -> fr (S t') = Some j).
  { intros t' j. destruct (decide (t = t')) as [<-|Hne]; [by rewrite fn_lookup_insert|by rewrite fn_lookup_insert_ne]. }
  split; cbn; try done.
  - intros t' c' m' i. destruct (decide (t = t')) as [<-|Hne]; [rewrite fn_lookup_insert|rewrite fn_lookup_insert_ne by done; by eapply F2].
    intros [= <- <-] Hi. by eapply Forall_forall in Hu.
  - intros t' i. destruct (decide (t = t')) as [<-|Hne]; [rewrite fn_lookup_insert; cbn; set_solver|rewrite fn_lookup_insert_ne by done; by eapply F3].
  - intros t' j Hj. apply Hfr in Hj. destruct (F4 _ _ Hj) as [H5 H6]. split; [done|]. intros t2 Hj2. apply H6, Hfr, Hj2.
  - intros t' j Hj. apply Hfr in Hj. eauto.
  - intros t'. destruct (decide (t = t')) as [<-|Hne]; [by rewrite fn_lookup_insert|by rewrite fn_lookup_insert_ne].
Qed.
Lemma fin_stops h L T K S t c m o : binv (Conf h L T K) S -> T t = Busy c m -> outcome m = Some o ->
  stops (par_of c) (S t) (match o with ORet r => Some r | _ => None end).
Proof. intros HB HT Ho. pose proof (bi_thr _ _ HB t) as Ht. cbn in Ht. rewrite HT in Ht. destruct Ht as [Ht _]. destruct m; cbn in Ho; try done; injection Ho as <-; done. Qed.
Lemma fin_b h L T K K' S t c m o : binv (Conf h L T K) S -> T t = Busy c m -> outcome m = Some o ->
  binv (Conf h L (<[t := Idle]> T) K') (<[t := PF None]> S).
Proof.
  intros HB HT Ho. destruct (fin_stops _ _ _ _ _ _ _ _ _ HB HT Ho) as [Hidle _]. destruct HB as [B1 B2 B3]. cbn in *. split; cbn.
  - intros t'. destruct (decide (t' = t)) as [->|Hne]; [by rewrite !fn_lookup_insert|]. rewrite !fn_lookup_insert_ne by done. apply B1.
  - intros t'. destruct (decide (t' = t)) as [->|Hne]; [|rewrite fn_lookup_insert_ne by done; apply B2].
    rewrite fn_lookup_insert in *. destruct (B2 t) as [Hp Hmm _]. by split.
  - intros l t'. rewrite B3. destruct (decide (t' = t)) as [->|Hne]; [|by rewrite fn_lookup_insert_ne]. by rewrite fn_lookup_insert, (idle_holds _ Hidle).
Qed.
Lemma fin_gives h L T K S t c m o : binv (Conf h L T K) S -> finv (Conf h L T K) S -> T t = Busy c m -> outcome m = Some o ->
  forall j, j ∈ gives o -> j ∈ K \/ fr (S t) = Some j.
Proof.
  intros HB [F1 F2 _ _ _ _ _ _] HT Ho j Hj. destruct (fin_stops _ _ _ _ _ _ _ _ _ HB HT Ho) as [_ Hgive]. cbn in *.
  destruct o as [[]| |]; cbn in Hj; try (by apply elem_of_nil in Hj). apply elem_of_list_singleton in Hj as ->.
  destruct (Hgive _ _ eq_refl) as [[->|?]|Hk]; [by left|by right|]. left. by eapply (F2 t c m).
Qed.
Lemma fin_f h L T K S t c m o : binv (Conf h L T K) S -> finv (Conf h L T K) S -> T t = Busy c m -> outcome m = Some o ->
  finv (Conf h L (<[t := Idle]> T) (gives o ++ K)) (<[t := PF None]> S).
Proof.
  intros HB HF HT Ho. pose proof (fin_gives _ _ _ _ _ _ _ _ _ HB HF HT Ho) as Hnew. destruct HF as [F1 F2 F3 F4 F5 F6 F7 F8]. cbn in *.
  assert (Hfr : forall t' j, fr (<[t:=PF None]> S t') = Some j -> t' <> t /\ fr (S t') = Some j).
  { intros t' j. destruct (decide (t' = t)) as [->|Hne]; [by rewrite fn_lookup_insert|]. by rewrite fn_lookup_insert_ne. }
  split; cbn.
  - set_solver.
  - intros t' c' m' i. destruct (decide (t' = t)) as [->|Hne]; [by rewrite fn_lookup_insert|]. rewrite fn_lookup_insert_ne by done. intros H5 H6. apply elem_of_app. right. by eapply F2.
  - intros t' i. destruct (decide (t' = t)) as [->|Hne]; [rewrite fn_lookup_insert; cbn; set_solver|]. rewrite fn_lookup_insert_ne by done. intros H5. apply elem_of_app. right. by eapply F3.
  - intros t' j Hj. destruct (Hfr _ _ Hj) as [Hne Hj']. destruct (F4 _ _ Hj') as [H5 H6]. split.
    { rewrite elem_of_app. intros [Hg|?]; [|done]. destruct (Hnew _ Hg) as [?|Hg']; [done|]. apply Hne. symmetry. by apply H6. }
    intros t2 Hj2. apply H6. by apply Hfr.
  - intros j. rewrite elem_of_app. intros [Hg|?]; [|eauto]. destruct (Hnew _ Hg) as [?|Hg']; [eauto|]. by apply (F6 t).
  - intros t' j Hj. destruct (Hfr _ _ Hj) as [Hne Hj']. eauto.
  - intros t'. destruct (decide (t' = t)) as [->|Hne]; [by rewrite fn_lookup_insert|]. by rewrite fn_lookup_insert_ne.
  - done.
Qed.

Lemma cinv_step evs cf S O e cf' : cinv (made evs) cf S O -> (forall t c m r, cf_t cf t = Busy c m -> p_rd (par_of c) = Some r -> r ∈ made evs) ->
  cstep E fuel cf e cf' ->
  exists S' O', cinv (made (evs ++ match e with Some e => [e] | None => [] end)) cf' S' O'.
Proof.
  intros HI Hrd Hstep. destruct cf as [h L T K]. destruct Hstep as [t c HT Hu|t c m h1 X a k L' h2 x HT Hal HL Ha|t c m h1 m1 o HT Hal Ho]; cbn in *.
  - destruct HI as [H1 H2 H3 H4]. assert (Ht : S t = PF None) by (pose proof (bi_thr _ _ H1 t) as Ht; cbn in Ht; by rewrite HT in Ht).
    set (O' := match reader_made c with Some r => <[r := Some (inl t)]> O | None => O end).
    exists (<[t := P0]> S), O'.
    assert (Hm : made (evs ++ [Inv t c]) = made evs ++ option_list (reader_made c)) by (by rewrite made_snoc).
    rewrite Hm. split.
    + by apply call_b.
    + by apply call_f.
    + intros HN. apply NoDup_app in HN as (HN1 & HN2 & _). destruct (H3 HN1) as [O1 O2 O3]. cbn in *.
      assert (Hother : forall r o, O r = Some o -> O' r = Some o).
      { intros r o Hr. subst O'. destruct (reader_made c) as [r'|]; [|done]. destruct (decide (r' = r)) as [->|Hne]; [|by rewrite fn_lookup_insert_ne].
        exfalso. apply (HN2 r); [apply H4; eauto|cbn; set_solver]. }
      split; cbn.
      * eauto.
      * intros t' c' m' r. destruct (decide (t = t')) as [<-|Hne]; [rewrite !fn_lookup_insert|rewrite !fn_lookup_insert_ne by done; eauto].
        intros _ [= <- <-]. cbn. intros Hr. subst O'. rewrite Hr. by rewrite fn_lookup_insert.
      * intros t' o c' d cur rs r. destruct (decide (t = t')) as [<-|Hne]; [by rewrite fn_lookup_insert|rewrite fn_lookup_insert_ne by done]. eauto.
    + intros r. subst O'. rewrite elem_of_app. destruct (reader_made c) as [r'|]; cbn; [|auto].
      destruct (decide (r' = r)) as [->|Hne]; [right; set_solver|rewrite fn_lookup_insert_ne by done; auto].
  - rewrite app_nil_r. destruct (cinv_allocs _ _ _ t c _ (fun r => Hrd t c m r HT) _ _ _ _ _ _ HI HT Hal) as (s & O' & Hs).
    eexists _, _. eapply cinv_ext; [| |exact (cinv_fine _ _ _ _ _ _ _ _ _ _ _ _ _ _ _ Hs (fn_lookup_insert _ _ _) (fun r => Hrd t c m r HT) HL Ha)]; [|done].
    intros t'. by rewrite upd_twice.
  - destruct (cinv_allocs _ _ _ t c _ (fun r => Hrd t c m r HT) _ _ _ _ _ _ HI HT Hal) as (s & O' & [H1 H2 H3 H4]).
    assert (made (evs ++ [Fin t o]) = made evs) as -> by (by rewrite made_snoc, app_nil_r).
    exists (<[t := PF None]> S), O'.
    assert (HS : forall t', t' <> t -> <[t := s]> S t' = <[t := PF None]> S t') by (intros; by rewrite !fn_lookup_insert_ne).
    assert (HT' : forall t', t' <> t -> <[t := Busy c m1]> T t' = <[t := Idle]> T t') by (intros; by rewrite !fn_lookup_insert_ne).
    split.
    + eapply binv_ext; [| |exact (fin_b _ _ _ _ (gives o ++ K) _ _ _ _ _ H1 (fn_lookup_insert _ _ _) Ho)]; intros t'; by rewrite upd_twice.
    + eapply finv_ext; [| |exact (fin_f _ _ _ _ _ _ _ _ _ H1 H2 (fn_lookup_insert _ _ _) Ho)]; intros t'; by rewrite upd_twice.
    + intros HN. destruct (H3 HN) as [O1 O2 O3]. cbn in *. split; cbn.
      * done.
      * intros t' c' m' r. destruct (decide (t' = t)) as [->|Hne]; [by rewrite !fn_lookup_insert|]. rewrite <- HS, <- HT' by done. eauto.
      * intros t' o' c' d cur rs r. destruct (decide (t' = t)) as [->|Hne]; [by rewrite fn_lookup_insert|]. rewrite <- HS by done. eauto.
    + done.
Qed.

Lemma cinv_start w O : (forall r, O r = None) -> cinv [] (start w) (fun _ => PF None) O.
Proof.
  intros HO. split; [apply binv_start| | |].
  - split; cbn; try done; try set_solver. intros i. rewrite elem_of_list_singleton. intros ->. by eexists.
  - intros _. split; done.
  - intros r. rewrite HO. by intros [? ?].
Qed.

Lemma busy_made w evs cf : csteps E fuel (start w) evs cf -> forall t c m r, cf_t cf t = Busy c m -> p_rd (par_of c) = Some r -> r ∈ made evs.
Proof.
  intros H. induction H as [|evs cf1 e cf2 _ IH Hs]; [done|]. intros t c m r HT Hr.
  assert (Hold : forall t m, cf_t cf1 t = Busy c m -> r ∈ made (evs ++ match e with Some e => [e] | None => [] end)).
  { intros t' m' Ht'. unfold made. rewrite flat_map_app. apply elem_of_app. left. by eapply IH. }
  destruct Hs as [t' c' HT' Hu|t' c' m' h1 X a k L' h2 x HT' Hal HL Ha|t' c' m' h1 m1 o HT' Hal Ho]; cbn in HT;
    (destruct (decide (t' = t)) as [->|Hne]; [rewrite fn_lookup_insert in HT|rewrite fn_lookup_insert_ne in HT by done; by eapply Hold]); try done.
  - injection HT as <- <-. rewrite made_snoc. apply elem_of_app. right. cbn in *. rewrite Hr. cbn. set_solver.
  - injection HT as <- <-. by eapply Hold.
Qed.

Theorem cinv_steps w evs cf : csteps E fuel (start w) evs cf -> exists S O, cinv (made evs) cf S O.
Proof.
  intros H. pose proof (busy_made _ _ _ H) as Hb. revert Hb. induction H as [|evs cf1 e cf2 H IH Hs]; intros Hb.
  - exists (fun _ => PF None), (fun _ => None). by apply cinv_start.
  - destruct (IH (busy_made _ _ _ H)) as (S & O & HI). eapply cinv_step; [exact HI|apply (busy_made _ _ _ H)|done].
Qed.
End Fresh.
