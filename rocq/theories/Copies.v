(** * Copies do not interfere: proofs of C08 *)
From stdpp Require Import gmap.
From Coq Require Import ZifyBool.
From Verif Require Export CopySpec Source ProofsStream Proofs01.

Lemma history_app {W} (E : env W) fuel cs1 cs2 : forall h h1 os1,
  history E fuel h cs1 = (h1, os1) -> OSpin ∉ os1 ->
  history E fuel h (cs1 ++ cs2) = (fst (history E fuel h1 cs2), os1 ++ snd (history E fuel h1 cs2)).
Proof.
  induction cs1 as [|c cs1 IH]; intros h h1 os1 H Hl; cbn in H.
  - injection H as <- <-. cbn. apply surjective_pairing.
  - cbn [app history]. destruct (exec E fuel h c) as [h' o]. destruct o.
    3: { injection H as <- <-. by destruct Hl; left. }
    all: destruct (history E fuel h' cs1) as [h2 os'] eqn:Hh; injection H as <- <-;
      rewrite (IH _ _ _ Hh) by (by apply not_elem_of_cons in Hl as [_ ?]); done.
Qed.
Lemma history_length {W} (E : env W) fuel cs : forall h h1 os,
  history E fuel h cs = (h1, os) -> OSpin ∉ os -> length os = length cs.
Proof.
  induction cs as [|c cs IH]; intros h h1 os H Hl; cbn in H; [by injection H as <- <-|].
  destruct (exec E fuel h c) as [h' o]. destruct o.
  3: { injection H as <- <-. by destruct Hl; left. }
  all: destruct (history E fuel h' cs) as [h2 os'] eqn:Hh; injection H as <- <-; cbn; f_equal; eapply IH; [done|]; by apply not_elem_of_cons in Hl as [_ ?].
Qed.

(** ** The trace of a single handle *)
Section Cursor.
Context (F : family).

(** The state after a call is determined by the state before and the result. *)
Lemma ideal_next st f st1 st2 x : ideal F st f st1 x -> ideal F st f st2 x -> st1 = st2.
Proof.
  unfold ideal. destruct st as [|pos e]; [by intros [-> _] [-> _]|].
  destruct f; try (by intros [-> _] [-> _]).
  - destruct e; [by intros [-> _] [-> _]|]. intros (k & err & _ & -> & ->) (k' & err' & _ & Hx & ->).
    injection Hx as Hk _ ->. f_equal. lia.
  - destruct (seek_to _ _ _ _) as [n err]. by intros [_ ->] [_ ->].
  - destruct (fam_flavour F); try (by intros [-> _] [-> _]).
    destruct e; [by intros [-> _] [-> _]|]. intros (k & err & _ & -> & ->) (k' & err' & _ & Hx & ->).
    injection Hx as Hk _. f_equal. lia.
Qed.
Lemma fam_step_next t i f t1 t2 x : fam_step F t i f t1 x -> fam_step F t i f t2 x -> t1 = t2.
Proof.
  intros (st & st1 & Hs & Hi & Ht) (st' & st2 & Hs' & Hi' & Ht'). rewrite Hs in Hs'. injection Hs' as <-.
  pose proof (ideal_next _ _ _ _ _ Hi Hi') as <-.
  destruct st; [congruence|]. destruct f; try congruence. destruct x; try congruence. destruct Ht, Ht'. congruence.
Qed.

(** The calls of the program on the family, with the tables between them. *)
Lemma fam_trace_app csA osA csB osB cs os : forall t,
  length os = length cs ->
  fam_trace F t (cs ++ csA) (os ++ osA) -> fam_trace F t (cs ++ csB) (os ++ osB) ->
  exists t1, fam_trace F t1 csA osA /\ fam_trace F t1 csB osB /\
    (forall j, is_Some (tracks (is_open <$> t) cs os !! j) -> is_Some (t1 !! j)).
Proof.
  revert os. induction cs as [|c cs IH]; intros [|o os] t Hl HA HB; try done.
  { exists t. split; [done|]. split; [done|]. intros j [b Hb]. cbn in Hb. rewrite lookup_fmap in Hb. destruct (t !! j); [by eexists|done]. }
  cbn [app] in HA, HB. injection Hl as Hl.
  assert (Hskip : (forall i f, c <> Call i f) -> tracks (is_open <$> t) (c :: cs) (o :: os) = tracks (is_open <$> t) cs os) by (intros Hc; destruct c as [i f| | | | | | |]; [by destruct (Hc i f)|done..]).
  destruct c as [i f| | | | | | |]; try (rewrite Hskip by congruence; by apply IH).
  cbn [fam_trace] in HA, HB. cbn [tracks].
  destruct (t !! i) as [st|] eqn:Hti.
  2: { replace (track (is_open <$> t) (Call i f) o) with (is_open <$> t); [by apply IH|].
       cbn [track]. rewrite lookup_fmap, Hti. cbn. destruct f; try done; destruct o as [[]| |]; try done; by repeat case_match. }
  destruct o as [x|pn|]; [|destruct HA as [_ HA], HB as [_ HB]; replace (track _ _ _) with (is_open <$> t) by (cbn; by destruct f); by apply IH|done].
  destruct HA as (tA & HsA & HA), HB as (tB & HsB & HB). pose proof (fam_step_next _ _ _ _ _ _ HsA HsB) as <-.
  replace (track (is_open <$> t) (Call i f) (ORet x)) with (is_open <$> tA); [by apply IH|].
  destruct HsA as (st' & st2 & Hst & Hid & Ht). rewrite Hti in Hst. injection Hst as <-.
  assert (Hsame : is_open st2 = is_open st -> is_open <$> <[i := st2]> t = (is_open <$> t : handles)).
  { intros He. rewrite fmap_insert, insert_id; [done|]. by rewrite lookup_fmap, Hti, He. }
  destruct st as [|pos e].
  - destruct Hid as [-> Hid]. assert (Ht' : tA = <[i := Shut]> t) by (by destruct f, x). subst tA. rewrite Hsame by done.
    cbn [track]. rewrite lookup_fmap, Hti. cbn. destruct f; try done; destruct x; try done; by repeat case_match.
  - assert (Hgo : f <> Copy -> f <> Close -> is_open <$> tA = track (is_open <$> t) (Call i f) (ORet x)).
    { intros H1 H2. assert (Ht' : tA = <[i := st2]> t) by (by destruct f, x). subst tA.
      replace (track (is_open <$> t) (Call i f) (ORet x)) with (is_open <$> t : handles) by (by destruct f, x).
      apply Hsame. revert Hid. cbn. destruct f; try done; try (by intros [-> _]).
      - destruct e; [by intros [-> _]|]. by intros (k & err & _ & _ & ->).
      - destruct (seek_to _ _ _ _) as [n [er|]]; by intros [_ ->].
      - destruct (fam_flavour F); try (by intros [-> _]). destruct e; [by intros [-> _]|]. by intros (k & err & _ & _ & ->). }
    destruct f; try (by apply Hgo).
    + destruct Hid as (-> & err & -> & _). cbn [track]. rewrite lookup_fmap, Hti. cbn. subst tA. by rewrite fmap_insert.
    + destruct Hid as (-> & k & ->). destruct Ht as [Hk ->]. cbn [track]. rewrite lookup_fmap, Hti. cbn. by rewrite fmap_insert.
Qed.

Fixpoint cur_trace (st : cursor) (fs : list op) (os : list (out res)) : Prop :=
  match fs, os with
  | f :: fs, o :: os =>
      match o with
      | ORet x => exists st', ideal F st f st' x /\ cur_trace st' fs os
      | OPanic _ => (exists w, f = WriteTo w) /\ cur_trace st fs os
      | OSpin => False
      end
  | [], [] => True
  | _, _ => False
  end.

Lemma ops_on_call j i f cs : ops_on j (Call i f :: cs) = if decide (i = j) then f :: ops_on j cs else ops_on j cs.
Proof. unfold ops_on. cbn. by destruct (decide (i = j)). Qed.
Lemma seen_call j i f cs o os : seen j (Call i f :: cs) (o :: os) = if decide (i = j) then o :: seen j cs os else seen j cs os.
Proof. unfold seen. cbn. by destruct (decide (i = j)). Qed.

Lemma fam_cur j cs : forall os t st, length os = length cs -> fam_trace F t cs os -> t !! j = Some st -> cur_trace st (ops_on j cs) (seen j cs os).
Proof.
  induction cs as [|c cs IH]; intros [|o os] t st Hl H Hj; try done. injection Hl as Hl.
  destruct c as [i f| | | | | | |]; try (by apply (IH os t)).
  rewrite ops_on_call, seen_call. cbn [fam_trace] in H. destruct (decide (i = j)) as [->|Hne].
  - rewrite Hj in H. cbn [cur_trace]. destruct o as [x|pn|]; [|destruct H as [H1 H]; split; [done|by apply (IH os t)]|done].
    destruct H as (t' & (st0 & st' & H0 & Hid & Ht) & H). rewrite Hj in H0. injection H0 as <-. exists st'. split; [done|].
    apply (IH os t'); try done. destruct st as [|pos e]; [by subst; rewrite lookup_insert|].
    destruct f; try (by subst; rewrite lookup_insert). destruct x; try (by subst; rewrite lookup_insert).
    destruct Ht as [Hk ->]. destruct Hid as [-> _]. rewrite lookup_insert_ne; [done|]. intros ->. congruence.
  - destruct (t !! i) as [si|] eqn:Hti; [|by apply (IH os t)]. destruct o as [x|pn|]; [|destruct H as [_ H]; by apply (IH os t)|done].
    destruct H as (t' & (st0 & st' & H0 & Hid & Ht) & H). apply (IH os t'); try done.
    assert (Hd : t' = <[i := st']> t -> t' !! j = Some st) by (intros ->; by rewrite lookup_insert_ne).
    rewrite Hti in H0. injection H0 as <-. destruct si as [|pos e]; [by apply Hd|].
    destruct f; try (by apply Hd). destruct x; try (by apply Hd). destruct Ht as [Hk ->]. rewrite lookup_insert_ne; [done|]. intros ->. congruence.
Qed.

Definition fam_shared : bool := match fam_flavour F with FReader _ _ => true | _ => false end.

Lemma read_at_det d pos p k k' err err' : read_at d false pos p k err -> read_at d false pos p k' err' -> k = k' /\ err = err'.
Proof.
  unfold read_at. intros (-> & H1 & H2 & H3) (-> & H1' & H2' & H3'). split; [done|].
  destruct (lt_eq_lt_dec (length p) (length d - pos)) as [[H|H]|H].
  - by rewrite H1, H1'.
  - destruct (H3 H) as [->|(? & _)]; [|done]. by destruct (H3' H) as [->|(? & _)].
  - by rewrite H2, H2'.
Qed.

Lemma ideal_det st f st1 st2 x1 x2 :
  is_early (fam_flavour F) = false -> is_WriteTo f = false ->
  ideal F st f st1 x1 -> ideal F st f st2 x2 -> st1 = st2 /\ alike fam_shared (ORet x1) (ORet x2).
Proof.
  intros He Hw. unfold ideal. rewrite He.
  destruct st as [|pos e].
  { intros [-> H1] [-> H2]. split; [done|]. assert (x1 = x2) as -> by (destruct f; try done; congruence).
    destruct x2; cbn; auto. by repeat case_match. }
  assert (Hrefl : forall o, alike fam_shared o o) by (intros [[]| |]; cbn; auto; by repeat case_match).
  destruct f; try done.
  - intros [-> ->] [-> ->]. auto.
  - destruct e; [intros [-> ->] [-> ->]; auto|].
    intros (k & err & Hr & -> & ->) (k' & err' & Hr' & -> & ->). destruct (read_at_det _ _ _ _ _ _ _ Hr Hr') as [-> ->]. auto.
  - intros (-> & err & -> & H1) (-> & err' & -> & H2). split; [done|]. cbn. unfold fam_shared.
    destruct (fam_flavour F); cbn in H1, H2; [right..|by left]; rewrite H1, H2; done.
  - destruct (seek_to _ _ _ _) as [n err]. intros [-> ->] [-> ->]. auto.
  - intros [-> H1] [-> H2]. split; [done|]. destruct (_ && _); [subst; auto|].
    destruct H1 as (k & err & Hr & ->), H2 as (k' & err' & Hr' & ->). destruct (read_at_det _ _ _ _ _ _ _ Hr Hr') as [-> ->]. auto.
  - intros (-> & k & ->) (-> & k' & ->). done.
  - intros [-> ->] [-> ->]. auto.
Qed.

Lemma cur_det fs : forall st os os', is_early (fam_flavour F) = false -> Forall (fun f => is_WriteTo f = false) fs ->
  cur_trace st fs os -> cur_trace st fs os' -> Forall2 (alike fam_shared) os os'.
Proof.
  induction fs as [|f fs IH]; intros st [|o os] [|o' os'] He Hw H H'; try done. apply Forall_cons in Hw as [Hw1 Hw2].
  cbn [cur_trace] in H, H'.
  destruct o as [x|pn|]; [|destruct H as [[w ->] _]; done|done].
  destruct o' as [x'|pn'|]; [|destruct H' as [[w ->] _]; done|done].
  destruct H as (st1 & Hi & H), H' as (st2 & Hi' & H'). destruct (ideal_det _ _ _ _ _ _ He Hw1 Hi Hi') as [-> Ha].
  constructor; [done|]. by eapply IH.
Qed.

Lemma fam_alike t cs os csA osA csB osB j :
  is_early (fam_flavour F) = false ->
  length os = length cs -> length osA = length csA -> length osB = length csB ->
  fam_trace F t (cs ++ csA) (os ++ osA) -> fam_trace F t (cs ++ csB) (os ++ osB) ->
  is_Some (tracks (is_open <$> t) cs os !! j) ->
  ops_on j csA = ops_on j csB -> Forall (fun f => is_WriteTo f = false) (ops_on j csA) ->
  Forall2 (alike fam_shared) (seen j csA osA) (seen j csB osB).
Proof.
  intros He Hl HlA HlB HA HB Hj Hops Hw. destruct (fam_trace_app _ _ _ _ _ _ _ Hl HA HB) as (t1 & HA1 & HB1 & Hin).
  destruct (Hin j Hj) as [st Hst].
  pose proof (fam_cur j _ _ _ _ HlA HA1 Hst) as HcA. pose proof (fam_cur j _ _ _ _ HlB HB1 Hst) as HcB. rewrite <- Hops in HcB.
  by eapply cur_det.
Qed.
End Cursor.

(** ** In memory *)
Section Memory.
Context {W : Type} (E : env W) (fuel : nat).

Lemma memory_copies (h : heap W) (c : cmd) (d : bytes) :
  c = NewBytes d \/ (exists s, c = NewString s /\ list_ascii_of_string s = d) \/ (c = NewEmpty /\ d = []) ->
  go_cmd c ->
  exists h1 i, exec E fuel h c = (h1, ORet (RBody i None)) /\
  forall cs h2 os j csA hA osA csB hB osB,
  Forall go_cmd (cs ++ csA ++ csB) ->
  history E fuel h1 cs = (h2, os) -> history E fuel h2 csA = (hA, osA) -> history E fuel h2 csB = (hB, osB) ->
  OSpin ∉ os ++ osA ++ osB -> copy_of i cs os j ->
  ops_on j csA = ops_on j csB -> Forall (fun f => is_WriteTo f = false) (ops_on j csA) ->
  Forall2 (alike false) (seen j csA osA) (seen j csB osB).
Proof.
  intros Hc Hgo. destruct (in_memory_cursors W E fuel h c d Hc Hgo) as (h1 & i & Hex & _ & Hall).
  exists h1, i. split; [done|]. intros cs h2 os j csA hA osA csB hB osB Hg H HA HB Hs Hj Hops Hw.
  rewrite !not_elem_of_app in Hs. destruct Hs as (Hs & HsA & HsB). rewrite !Forall_app in Hg. destruct Hg as (Hg & HgA & HgB).
  assert (Hsh : fam_shared (mem_family d) = false) by (by destruct d). rewrite <- Hsh.
  assert (TA : fam_trace (mem_family d) {[i := At 0 false]} (cs ++ csA) (os ++ osA)).
  { pose proof (history_app E fuel cs csA _ _ _ H Hs) as Hx. rewrite HA in Hx. by eapply Hall; [apply Forall_app|exact Hx]. }
  assert (TB : fam_trace (mem_family d) {[i := At 0 false]} (cs ++ csB) (os ++ osB)).
  { pose proof (history_app E fuel cs csB _ _ _ H Hs) as Hx. rewrite HB in Hx. by eapply Hall; [apply Forall_app|exact Hx]. }
  eapply fam_alike; try done; try (by eapply history_length); [by destruct d|].
  rewrite map_fmap_singleton. done.
Qed.
End Memory.

(** ** Readers *)
Section Readers.
Context {W : Type} (E : env W) (fuel : nat).
Implicit Types h : heap W.

Lemma wrapped_on r w h1 i cs h os csA hA osA :
  wrapped_once E fuel r w h1 i cs h os -> OSpin ∉ os -> goes_on E fuel r h csA hA osA ->
  wrapped_once E fuel r w h1 i (cs ++ csA) hA (os ++ osA).
Proof.
  intros (Hge & cs0 & os0 & h0 & new & Hgo & Hnw & Hwr & H0 & H1 & H2 & Hf) Hs (HA & _ & HgA & HnA & HfA).
  split; [done|]. exists cs0, os0, h0, new. split; [rewrite app_comm_cons, app_assoc; by apply Forall_app|].
  split; [rewrite app_assoc; by apply Forall_app|]. do 3 (split; [done|]). split; [|done].
  rewrite (history_app E fuel cs csA _ _ _ H2 Hs), HA. done.
Qed.
Lemma wrapped_length r w h1 i cs h os : wrapped_once E fuel r w h1 i cs h os -> OSpin ∉ os -> length os = length cs.
Proof. intros (Hge & cs0 & os0 & h0 & new & _ & _ & _ & _ & _ & H2 & _) Hs. by eapply history_length. Qed.

Lemma seekable_copies r live d :
  serves_at E r live d false /\ cp_readerat (ev_caps E r) = true \/
  serves_seek E r live d false /\ cp_readerat (ev_caps E r) = false /\ cp_seeker (ev_caps E r) = true ->
  forall w h1 i cs h os D j csA hA osA csB hB osB,
  live w -> wrapped_once E fuel r w h1 i cs h os -> OSpin ∉ os -> announces E fuel h1 i D -> 0 <= D <= zlen d ->
  copy_of i cs os j -> goes_on E fuel r h csA hA osA -> goes_on E fuel r h csB hB osB ->
  ops_on j csA = ops_on j csB -> Forall (fun f => is_WriteTo f = false) (ops_on j csA) ->
  Forall2 (alike true) (seen j csA osA) (seen j csB osB).
Proof.
  intros Hsrc w h1 i cs h os D j csA hA osA csB hB osB Hl Hw Hs Han HD Hj HA HB Hops Hwt.
  assert (Htr : forall cs h os, wrapped_once E fuel r w h1 i cs h os -> fam_trace (first_bytes r false D d) {[ i := At 0 false ]} cs os).
  { intros cs' h' os' Hw'. destruct Hsrc as [[? ?]|(? & ? & ?)]; [by eapply cursors_at|by eapply cursors_seek]. }
  eapply (fam_alike (first_bytes r false D d)); try done.
  - by eapply wrapped_length.
  - destruct HA as (HA & HsA & _). by eapply history_length.
  - destruct HB as (HB & HsB & _). by eapply history_length.
  - eapply Htr. by eapply wrapped_on.
  - eapply Htr. by eapply wrapped_on.
  - by rewrite map_fmap_singleton.
Qed.
End Readers.

(** ** Streams *)
Section Streams.
Context (P : nat -> bool -> op -> res -> Prop).

Lemma stream_trace_app B csA osA cs : forall os t, length os = length cs ->
  stream_trace B P t (cs ++ csA) (os ++ osA) -> stream_trace B P (follows t cs os) csA osA.
Proof.
  induction cs as [|c cs IH]; intros [|o os] t Hl H; try done. injection Hl as Hl. cbn [app stream_trace] in H. destruct H as [_ H].
  cbn [follows]. by apply IH.
Qed.

Definition next (st : cursor) (f : op) (o : out res) : cursor :=
  match st, f, o with
  | At pos _, Read _, ORet (RRead n _ err) => At (pos + Z.to_nat n) (is_some_err err)
  | _, Close, ORet (RErr _) => Shut
  | _, _, _ => st
  end.
Fixpoint scur (st : cursor) (fs : list op) (os : list (out res)) : Prop :=
  match fs, os with
  | f :: fs, o :: os =>
      match st with
      | At pos ended => exists x, o = ORet x /\ P pos ended f x
      | Shut => o = ORet match f with Seek _ _ | ReadAt _ _ | WriteTo _ => RNoMethod | _ => closed_answer f end
      end /\ scur (next st f o) fs os
  | [], [] => True
  | _, _ => False
  end.

Lemma stream_cur j cs : forall os t st, length os = length cs -> OSpin ∉ os -> stream_trace False P t cs os -> t !! j = Some st ->
  scur st (ops_on j cs) (seen j cs os).
Proof.
  induction cs as [|c cs IH]; intros [|o os] t st Hl Hs H Hj; try done. injection Hl as Hl. apply not_elem_of_cons in Hs as [Hs1 Hs].
  cbn [stream_trace] in H. destruct H as [H1 H].
  destruct c as [i f| | | | | | |]; try (by apply (IH os t)).
  rewrite ops_on_call, seen_call. destruct (decide (i = j)) as [->|Hne].
  - rewrite Hj in H1. cbn [scur]. split.
    { destruct st; [done|]. destruct o as [x| |]; [|by destruct H1 as [[] _]|done]. exists x. by destruct H1. }
    apply (IH os (follow t (Call j f) o)); try done. cbn [follow].
    destruct f; try (by destruct st); destruct o as [[| | | | |k [er|]| | |]| |]; rewrite ?Hj; try (by destruct st).
    + destruct st; [done|]. by rewrite lookup_insert.
    + destruct st; [done|]. by rewrite lookup_insert.
    + destruct st; [done|]. destruct H1 as [_ H1]. rewrite lookup_insert_ne; [done|]. intros ->. by rewrite (H1 j None) in Hj.
  - apply (IH os (follow t (Call i f) o)); try done. cbn [follow].
    destruct f; try done; destruct o as [[| | | | |k [er|]| | |]| |]; try done; destruct (t !! i) as [[|pos e]|] eqn:Hti; try done.
    + by rewrite lookup_insert_ne.
    + by rewrite lookup_insert_ne.
    + destruct H1 as [_ H1]. rewrite lookup_insert_ne; [done|]. intros ->. by rewrite (H1 j None) in Hj.
Qed.
End Streams.

Section Streams.
Context (D : Z) (d : bytes) (e : error) (r : rid).

Lemma alike_refl b o : alike b o o.
Proof. destruct o as [[| | | | |k [er|]| | |]| |]; cbn; auto. Qed.

Lemma scur_det fs : forall st os os', Forall (fun f => is_BytesRemaining f = false) fs ->
  scur (final_answer D d (Some e) r) st fs os -> scur (final_answer D d (Some e) r) st fs os' -> Forall2 (alike true) os os'.
Proof.
  induction fs as [|f fs IH]; intros st [|o os] [|o' os'] Hb H H'; try done. apply Forall_cons in Hb as [Hb1 Hb2].
  cbn [scur] in H, H'. destruct H as [H1 H2], H' as [H1' H2'].
  assert (Hx : alike true o o' /\ next st f o = next st f o').
  { destruct st as [|pos ended]; [subst; split; [apply alike_refl|done]|].
    destruct H1 as (x & -> & H1), H1' as (x' & -> & H1').
    destruct f; try done; cbn in H1, H1'.
    - destruct H1 as (err & -> & Hc), H1' as (err' & -> & Hc'). assert (err = err') as -> by (destruct (_ || _); destruct Hc, Hc'; congruence).
      split; [apply alike_refl|done].
    - destruct H1 as (err & ->), H1' as (err' & ->). split; [by left|done].
    - subst. split; [apply alike_refl|done].
    - subst. split; [apply alike_refl|done].
    - subst. split; [apply alike_refl|done].
    - destruct H1 as (k & ->), H1' as (k' & ->). done.
    - subst. split; [apply alike_refl|done]. }
  destruct Hx as [Hx Hn]. constructor; [done|]. rewrite Hn in H2. by eapply IH.
Qed.
End Streams.

Section Streams.
Context {W : Type} (E : env W) (fuel : nat).
Implicit Types h : heap W.

Lemma follows_tracks cs : forall t os, tracks (open_table t) cs os = open_table (follows t cs os).
Proof. induction cs as [|c cs IH]; intros t [|o os]; try done. cbn [tracks follows]. by rewrite <- IH, follow_track. Qed.

Lemma stream_copies r gp d e : streams E r gp d e ->
  forall w h1 i cs h os D j csA hA osA csB hB osB,
  gp w = 0%nat -> wrapped_once E fuel r w h1 i cs h os -> OSpin ∉ os -> streaming E fuel r h1 i D -> D <> zlen d \/ e = EOF ->
  copy_of i cs os j -> goes_on E fuel r h csA hA osA -> goes_on E fuel r h csB hB osB ->
  ops_on j csA = ops_on j csB -> Forall (fun f => is_BytesRemaining f = false) (ops_on j csA) ->
  Forall2 (alike true) (seen j csA osA) (seen j csB osB).
Proof.
  intros Hstr w h1 i cs h os D j csA hA osA csB hB osB Hg Hw Hs HD Hun Hj HA HB Hops Hbr.
  pose proof (wrapped_on _ _ _ _ _ _ _ _ _ _ _ _ Hw Hs HA) as HwA. pose proof (wrapped_on _ _ _ _ _ _ _ _ _ _ _ _ Hw Hs HB) as HwB.
  destruct (faithful E fuel r gp d e Hstr w h1 i _ _ _ D Hg HwA HD) as (eA & HeA & TA).
  destruct (faithful E fuel r gp d e Hstr w h1 i _ _ _ D Hg HwB HD) as (eB & HeB & TB).
  assert (eA = eB) as <-.
  { unfold end_error in HeA, HeB. destruct HeA as [[? ->]|[? ->]], HeB as [[? ->]|[? ->]]; try done; destruct Hun; try done; lia. }
  pose proof (wrapped_length _ _ _ _ _ _ _ _ _ Hw Hs) as Hl.
  apply stream_trace_app in TA; [|done]. apply stream_trace_app in TB; [|done].
  assert (exists st, follows {[i := At 0 false]} cs os !! j = Some st) as [st Hst].
  { unfold copy_of in Hj. change ({[i := true]} : handles) with ({[i := is_open (At 0 false)]} : handles) in Hj.
    rewrite <- (map_fmap_singleton is_open i (At 0 false)) in Hj. change (is_open <$> {[i := At 0 false]}) with (open_table {[i := At 0 false]}) in Hj.
    rewrite follows_tracks in Hj. unfold open_table in Hj. rewrite lookup_fmap in Hj.
    destruct (follows {[i := At 0 false]} cs os !! j) as [st|]; [by exists st|by destruct Hj]. }
  destruct HA as (HA & HsA & _), HB as (HB & HsB & _).
  pose proof (stream_cur _ j _ _ _ _ (history_length _ _ _ _ _ _ HA HsA) HsA TA Hst) as CA.
  pose proof (stream_cur _ j _ _ _ _ (history_length _ _ _ _ _ _ HB HsB) HsB TB Hst) as CB. rewrite <- Hops in CB.
  by eapply scur_det.
Qed.
End Streams.

(** ** What is not independent *)
Lemma hiccup_spreads :
  exists (W : Type) (E : env W) (fuel : nat) (r : rid) (w : W) h1 i cs h os j csA hA osA csB hB osB,
  rule_abiding E /\ wrapped_once E fuel r w h1 i cs h os /\ OSpin ∉ os /\ copy_of i cs os j /\
  goes_on E fuel r h csA hA osA /\ goes_on E fuel r h csB hB osB /\ ops_on j csA = ops_on j csB /\
  csA = [Call i (Read (buf 3)); Call j BytesRemaining; Call j (Read (buf 5))] /\
  osA = [ORet (RRead 0 (buf 3) (Some (External 9))); ORet (RInt (-6)); ORet (RRead 0 (buf 5) (Some EOF))] /\
  csB = [Call j BytesRemaining; Call j (Read (buf 5))] /\
  osB = [ORet (RInt 5); ORet (RRead 5 (bs "world") None)] /\
  ~ Forall2 (alike true) (seen j csA osA) (seen j csB osB).
Proof.
  exists _, (hiccup (bs "hello world")), 0%nat, 0%nat, (0, 0)%nat. eexists _, 1%nat, [Call 1 Copy; Call 2 (Seek 6 0)], _, _, 2%nat.
  eexists [Call 1 (Read (buf 3)); Call 2 BytesRemaining; Call 2 (Read (buf 5))], _, _, [Call 2 BytesRemaining; Call 2 (Read (buf 5))], _, _.
  split; [apply hiccup_rules|]. split.
  { split; [apply hiccup_rules|]. exists [], []. eexists _, (NewReader 0).
    split; [repeat constructor; vm_compute; done|]. split; [repeat constructor; intros [|[? ?]]; congruence|]. split; [by left|].
    split; [vm_compute; reflexivity|]. split; [vm_compute; reflexivity|]. split; [vm_compute; reflexivity|]. split; vm_compute; done. }
  split; [rewrite !not_elem_of_cons; split; [done|split; [done|apply not_elem_of_nil]]|]. split; [vm_compute; eauto|].
  split.
  { split; [vm_compute; reflexivity|]. split; [rewrite !not_elem_of_cons; repeat (split; [done|]); apply not_elem_of_nil|].
    split; [repeat constructor; vm_compute; done|]. split; [repeat constructor; intros [|[? ?]]; congruence|]. split; vm_compute; done. }
  split.
  { split; [vm_compute; reflexivity|]. split; [rewrite !not_elem_of_cons; repeat (split; [done|]); apply not_elem_of_nil|].
    split; [repeat constructor; vm_compute; done|]. split; [repeat constructor; intros [|[? ?]]; congruence|]. split; vm_compute; done. }
  repeat (split; [vm_compute; reflexivity|]). intros H. vm_compute in H. inversion H; subst. done.
Qed.

Lemma remaining_spreads :
  exists (W : Type) (E : env W) (fuel : nat) (r : rid) gp d e (w : W) h1 i cs h os j csA hA osA csB hB osB,
  streams E r gp d e /\ gp w = 0%nat /\ wrapped_once E fuel r w h1 i cs h os /\ streaming E fuel r h1 i (-1) /\
  OSpin ∉ os /\ copy_of i cs os j /\
  goes_on E fuel r h csA hA osA /\ goes_on E fuel r h csB hB osB /\ ops_on j csA = ops_on j csB /\
  csA = [Call i (Read (buf 5)); Call j BytesRemaining] /\ osA = [ORet (RRead 5 (bs "hello") None); ORet (RInt 11)] /\
  csB = [Call j BytesRemaining] /\ osB = [ORet (RInt (-1))] /\
  ~ Forall2 (alike true) (seen j csA osA) (seen j csB osB).
Proof.
  exists _, (lone (hello plain 20)), 9%nat, 0%nat, (fun w => Nat.min w (length (so_data (hello plain 20)))), (bs "hello world"), EOF, 0%nat.
  eexists _, 1%nat, [Call 1 Copy], _, _, 2%nat.
  eexists [Call 1 (Read (buf 5)); Call 2 BytesRemaining], _, _, [Call 2 BytesRemaining], _, _.
  split; [apply (lone_streams (hello plain 20)); cbn; lia|]. split; [done|]. split.
  { split; [apply lone_go|]. exists [], []. eexists _, (NewReader 0).
    split; [repeat constructor; vm_compute; done|]. split; [repeat constructor; intros [|[? ?]]; congruence|]. split; [by left|].
    split; [vm_compute; reflexivity|]. split; [vm_compute; reflexivity|]. split; [vm_compute; reflexivity|]. split; vm_compute; done. }
  split; [split; vm_compute; reflexivity|].
  split; [rewrite !not_elem_of_cons; split; [done|apply not_elem_of_nil]|]. split; [vm_compute; eauto|].
  split.
  { split; [vm_compute; reflexivity|]. split; [rewrite !not_elem_of_cons; repeat (split; [done|]); apply not_elem_of_nil|].
    split; [repeat constructor; vm_compute; done|]. split; [repeat constructor; intros [|[? ?]]; congruence|]. split; vm_compute; done. }
  split.
  { split; [vm_compute; reflexivity|]. split; [rewrite !not_elem_of_cons; repeat (split; [done|]); apply not_elem_of_nil|].
    split; [repeat constructor; vm_compute; done|]. split; [repeat constructor; intros [|[? ?]]; congruence|]. split; vm_compute; done. }
  repeat (split; [vm_compute; reflexivity|]). intros H. vm_compute in H. inversion H; subst. done.
Qed.
