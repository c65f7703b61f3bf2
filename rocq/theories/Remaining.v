(** * BytesRemaining is exact: proofs for C46 *)
From stdpp Require Import gmap.
From Coq Require Import ZifyBool.
From Verif Require Export RemainSpec Copies.

(** ** Families of cursors *)
Section Cursor.
Context (F : family).
Notation len := (length (fam_data F)).

(** Within the data; at the end if the end has been reported. *)
Definition sane (st : cursor) : Prop :=
  match st with Shut => True | At pos ended => (pos <= len)%nat /\ (ended = true -> pos = len) end.

Lemma sane_step st f st' x : is_WriteTo f = false \/ fam_flavour F <> FBytes -> sane st -> ideal F st f st' x -> sane st'.
Proof.
  intros Hw Hs Hi. destruct st as [|pos e]; cbn in Hi; [by destruct Hi as [-> _]|]. destruct Hs as [H1 H2].
  destruct f; try done; try (by destruct Hi as [-> _]).
  - destruct e; [by destruct Hi as [-> _]|]. destruct Hi as (k & err & (-> & Ha & Hb & Hc) & _ & ->). cbn.
    split; [lia|]. intros He. destruct err; [|done].
    destruct (lt_eq_lt_dec (length p) (len - pos)) as [[H|H]|H]; [by specialize (Ha H)|lia|lia].
  - destruct (seek_to _ _ _ _) as [n err] eqn:Hse. destruct Hi as [_ ->]. destruct err; [done|]. cbn. split; [|done].
    unfold seek_to in Hse. repeat case_match; injection Hse as <-; lia.
  - destruct Hw as [?|Hw]; [done|]. destruct (fam_flavour F); try done; by destruct Hi as [-> _].
Qed.

Lemma fam_sane csA osA cs : forall os t,
  length os = length cs -> Forall no_WriteTo cs \/ fam_flavour F <> FBytes -> map_Forall (fun _ => sane) t ->
  fam_trace F t (cs ++ csA) (os ++ osA) ->
  exists t1, fam_trace F t1 csA osA /\ map_Forall (fun _ => sane) t1 /\
    (forall j, is_Some (tracks (is_open <$> t) cs os !! j) -> is_Some (t1 !! j)).
Proof.
  induction cs as [|c cs IH]; intros [|o os] t Hl Hw Hs HA; try done.
  { exists t. split; [done|]. split; [done|]. intros j [b Hb]. cbn in Hb. rewrite lookup_fmap in Hb. destruct (t !! j); [by eexists|done]. }
  cbn [app] in HA. injection Hl as Hl. rewrite Forall_cons in Hw.
  assert (Hw' : Forall no_WriteTo cs \/ fam_flavour F <> FBytes) by tauto.
  assert (Hskip : (forall i f, c <> Call i f) -> tracks (is_open <$> t) (c :: cs) (o :: os) = tracks (is_open <$> t) cs os) by (intros Hc; destruct c as [i f| | | | | | |]; [by destruct (Hc i f)|done..]).
  destruct c as [i f| | | | | | |]; try (rewrite Hskip by congruence; by apply IH).
  cbn [fam_trace] in HA. cbn [tracks].
  destruct (t !! i) as [st|] eqn:Hti.
  2: { replace (track (is_open <$> t) (Call i f) o) with (is_open <$> t); [by apply IH|].
       cbn [track]. rewrite lookup_fmap, Hti. cbn. destruct f; try done; destruct o as [[]| |]; try done; by repeat case_match. }
  destruct o as [x|pn|]; [|destruct HA as [[w ->] HA]; by apply IH|done].
  destruct HA as (tA & HsA & HA).
  assert (Hsn : map_Forall (fun _ => sane) tA).
  { destruct HsA as (st1 & st2 & Hst & Hid & Ht). rewrite Hti in Hst. injection Hst as <-.
    assert (Hf : is_WriteTo f = false \/ fam_flavour F <> FBytes) by (destruct Hw as [[Hw _]|?]; [left; by destruct f|by right]).
    pose proof (Hs _ _ Hti) as Hsi. cbn in Hsi. pose proof (sane_step _ _ _ _ Hf Hsi Hid) as Hs2.
    assert (Hn : forall k s, sane s -> map_Forall (fun _ => sane) (<[k := s]> t)) by (intros; by apply map_Forall_insert_2).
    destruct st; [subst; by apply Hn|]. destruct f; try (by subst; apply Hn). destruct x; try (by subst; apply Hn).
    destruct Ht as [_ ->]. by apply Hn. }
  destruct (IH os tA Hl Hw' Hsn HA) as (t1 & H1 & H2 & H3). exists t1. split; [done|]. split; [done|].
  replace (track (is_open <$> t) (Call i f) (ORet x)) with (is_open <$> tA); [done|].
  clear -HsA Hti.
  destruct HsA as (st' & st2 & Hst & Hid & Ht). rewrite Hti in Hst. injection Hst as <-.
  assert (Hsame : is_open st2 = is_open st -> is_open <$> <[i := st2]> t = (is_open <$> t : handles)).
  { intros He. rewrite fmap_insert, insert_id; [done|]. by rewrite lookup_fmap, Hti, He. }
  destruct st as [|pos e].
  - destruct Hid as [-> Hid]. assert (Ht' : tA = <[i := Shut]> t) by (by destruct f, x). subst tA. rewrite Hsame by done.
    cbn [track]. rewrite lookup_fmap, Hti. cbn. destruct f; try done; destruct x; try done; by repeat case_match.
  - assert (Hgo : f <> Copy -> f <> Close -> is_open <$> tA = track (is_open <$> t) (Call i f) (ORet x)).
    { intros H1 H2. assert (Ht' : tA = <[i := st2]> t) by (by destruct f, x). subst tA.
      replace (track (is_open <$> t) (Call i f) (ORet x)) with (is_open <$> t : handles) by (by destruct f, x).
      apply Hsame. revert Hid. cbn. destruct f; try done; try (by intros [-> _]).
      - destruct e; [by intros [-> _]|]. by intros (k & err & _ & _ & ->).
      - destruct (seek_to _ _ _ _) as [n [er|]]; by intros [_ ->].
      - destruct (fam_flavour F); try (by intros [-> _]). destruct e; [by intros [-> _]|]. by intros (k & err & _ & _ & ->). }
    destruct f; try (by apply Hgo).
    + destruct Hid as (-> & err & -> & _). cbn [track]. rewrite lookup_fmap, Hti. cbn. subst tA. by rewrite fmap_insert.
    + destruct Hid as (-> & k & ->). destruct Ht as [Hk ->]. cbn [track]. rewrite lookup_fmap, Hti. cbn. by rewrite fmap_insert.
Qed.

(** What is left to be read. *)
Definition left_of (st : cursor) : Z := match st with Shut => 0 | At pos _ => Z.of_nat len - Z.of_nat pos end.

Lemma reads_left ps : forall st os n q e, sane st ->
  cur_trace F st (map Read ps) (os ++ [ORet (RRead n q (Some e))]) ->
  delivered (os ++ [ORet (RRead n q (Some e))]) = left_of st.
Proof.
  induction ps as [|p ps IH]; intros st os n q e Hs H; [by destruct os|].
  assert (Hr : forall st' n' q' err, ideal F st (Read p) st' (RRead n' q' err) ->
            sane st' /\ left_of st = n' + left_of st' /\ (is_Some err -> left_of st' = 0)).
  { intros st' n' q' err Hid. split; [eapply (sane_step _ (Read p)); eauto|].
    destruct st as [|pos ended]; cbn in Hid.
    - destruct Hid as [-> Hx]. injection Hx as -> -> ->. done.
    - destruct Hs as [Hp He]. destruct ended.
      + destruct Hid as [-> Hx]. injection Hx as -> -> ->. cbn. rewrite He by done. split; [lia|]. intros; lia.
      + destruct Hid as (k & er & (-> & Ha & Hb & Hc) & Hx & ->). injection Hx as -> -> ->. cbn. split; [lia|].
        intros [ee ->]. destruct (lt_eq_lt_dec (length p) (len - pos)) as [[Hx|Hx]|Hx]; [by specialize (Ha Hx)|lia|lia]. }
  destruct os as [|o os].
  - cbn in H. destruct H as (st' & Hid & Hn). destruct (Hr _ _ _ _ Hid) as (_ & Hl & He). rewrite Hl, He by eauto. unfold delivered. cbn. lia.
  - cbn [app map cur_trace] in H. destruct o as [x|pn|]; [|by destruct H as [[w Hw] _]|done].
    destruct H as (st' & Hid & H).
    assert (exists n' q' err, x = RRead n' q' err) as (n' & q' & err & ->).
    { destruct st as [|pos ended]; cbn in Hid; [destruct Hid as [_ ->]; eauto|]. destruct ended; [destruct Hid as [_ ->]; eauto|].
      destruct Hid as (k & er & _ & -> & _). eauto. }
    destruct (Hr _ _ _ _ Hid) as (Hs' & Hl & _). rewrite Hl, <- (IH st' os n q e Hs' H). unfold delivered. cbn. done.
Qed.

Lemma fam_exact t cs os csA osA j z e :
  length os = length cs -> length osA = length csA -> Forall no_WriteTo cs \/ fam_flavour F <> FBytes -> map_Forall (fun _ => sane) t ->
  fam_trace F t (cs ++ csA) (os ++ osA) -> is_Some (tracks (is_open <$> t) cs os !! j) ->
  read_to_end j csA osA z e -> delivered (seen j csA osA) = z.
Proof.
  intros Hl HlA Hw Hs H Hj (ps & xs & n & q & Ho & Hse).
  destruct (fam_sane _ _ _ _ _ Hl Hw Hs H) as (t1 & H1 & Hs1 & Hin). destruct (Hin j Hj) as [st Hst].
  pose proof (fam_cur F j _ _ _ _ HlA H1 Hst) as Hc. rewrite Ho, Hse in Hc. rewrite Hse.
  cbn [cur_trace] in Hc. destruct Hc as (st' & Hid & Hc). pose proof (Hs1 _ _ Hst) as Hss. cbn in Hss.
  assert (st' = st /\ z = left_of st) as [-> ->].
  { destruct st; cbn in Hid; destruct Hid as [-> Hx]; injection Hx as ->; done. }
  by rewrite <- (reads_left ps st (map ORet xs) n q e Hss Hc).
Qed.
End Cursor.

(** ** In memory, and sources that can be read anywhere *)
Section Families.
Context {W : Type} (E : env W) (fuel : nat).

Lemma memory_exact (h : heap W) (c : cmd) (d : bytes) :
  c = NewBytes d \/ (exists s, c = NewString s /\ list_ascii_of_string s = d) \/ (c = NewEmpty /\ d = []) ->
  go_cmd c ->
  exists h1 i, exec E fuel h c = (h1, ORet (RBody i None)) /\
  forall cs h2 os j csA hA osA z e,
  Forall go_cmd (cs ++ csA) -> Forall no_WriteTo cs ->
  history E fuel h1 cs = (h2, os) -> history E fuel h2 csA = (hA, osA) -> OSpin ∉ os ++ osA -> copy_of i cs os j ->
  read_to_end j csA osA z e -> delivered (seen j csA osA) = z.
Proof.
  intros Hc Hgo. destruct (in_memory_cursors W E fuel h c d Hc Hgo) as (h1 & i & Hex & _ & Hall).
  exists h1, i. split; [done|]. intros cs h2 os j csA hA osA z e Hg Hw H HA Hs Hj Hr.
  rewrite !not_elem_of_app in Hs. destruct Hs as (Hs & HsA).
  assert (TA : fam_trace (mem_family d) {[i := At 0 false]} (cs ++ csA) (os ++ osA)).
  { pose proof (history_app E fuel cs csA _ _ _ H Hs) as Hx. rewrite HA in Hx. by eapply Hall; [|exact Hx]. }
  eapply (fam_exact (mem_family d) {[ i := At 0 false ]}); try done; try (by eapply history_length).
  - by left.
  - apply map_Forall_singleton. split; [cbn; lia|done].
  - by rewrite map_fmap_singleton.
Qed.

Lemma seekable_exact r live d early :
  serves_at E r live d early /\ cp_readerat (ev_caps E r) = true \/
  serves_seek E r live d early /\ cp_readerat (ev_caps E r) = false /\ cp_seeker (ev_caps E r) = true ->
  forall w h1 i cs h os D j csA hA osA z e,
  live w -> wrapped_once E fuel r w h1 i cs h os -> OSpin ∉ os -> announces E fuel h1 i D -> 0 <= D <= zlen d ->
  copy_of i cs os j -> goes_on E fuel r h csA hA osA ->
  read_to_end j csA osA z e -> delivered (seen j csA osA) = z.
Proof.
  intros Hsrc w h1 i cs h os D j csA hA osA z e Hl Hw Hs Han HD Hj HA Hr.
  eapply (fam_exact (first_bytes r early D d) {[ i := At 0 false ]}); try done.
  - by eapply wrapped_length.
  - destruct HA as (HA & HsA & _). by eapply history_length.
  - by right.
  - apply map_Forall_singleton. split; [cbn; lia|done].
  - pose proof (wrapped_on _ _ _ _ _ _ _ _ _ _ _ _ Hw Hs HA) as HwA. destruct Hsrc as [[? ?]|(? & ? & ?)]; [by eapply cursors_at|by eapply cursors_seek].
  - by rewrite map_fmap_singleton.
Qed.
End Families.

(** ** Streams *)
Section Streams.
Context (D : Z) (d : bytes) (e0 : option error) (r : rid).
Notation P := (final_answer D d e0 r).

Definition within (st : cursor) : Prop :=
  match st with Shut => True | At pos ended => (pos <= length d)%nat /\ (ended = true -> pos = length d) end.

Lemma within_step B t i f o : map_Forall (fun _ => within) t ->
  match t !! i with
  | Some (At pos ended) => match o with ORet x => P pos ended f x | OPanic _ | OSpin => B end
  | _ => True
  end -> map_Forall (fun _ => within) (follow t (Call i f) o).
Proof.
  intros Ht H.
  assert (Hn : forall k s, within s -> map_Forall (fun _ => within) (<[k := s]> t)) by (intros; by apply map_Forall_insert_2).
  unfold follow. destruct (t !! i) as [[|pos ended]|] eqn:Hti; try (by repeat case_match).
  pose proof (Ht _ _ Hti) as [Hp He].
  destruct o as [x| |]; [|by repeat case_match..]. destruct f; try done; destruct x; try done.
  - destruct H as (er & Hx & Hc). injection Hx as -> -> ->. apply Hn. cbn. split; [lia|]. intros Hy.
    destruct er; [|done]. destruct (ended || _) eqn:Ho; [|done]. destruct ended; [specialize (He eq_refl); lia|]. cbn [orb] in Ho. lia.
  - by apply Hn.
  - destruct err; [done|]. apply Hn. done.
Qed.

Lemma within_steps B cs : forall os t, length os = length cs -> map_Forall (fun _ => within) t -> stream_trace B P t cs os ->
  map_Forall (fun _ => within) (follows t cs os).
Proof.
  induction cs as [|c cs IH]; intros [|o os] t Hl Ht H; try done. injection Hl as Hl. cbn [stream_trace] in H. destruct H as [H1 H].
  cbn [follows]. apply IH; [done| |done]. destruct c as [i f| | | | | | |]; try done.
  apply (within_step True); [done|]. destruct (t !! i) as [[|pos ended]|]; try done. destruct o; try done. by destruct H1.
Qed.
Lemma stream_trace_pre B csA osA cs : forall os t, length os = length cs ->
  stream_trace B P t (cs ++ csA) (os ++ osA) -> stream_trace B P t cs os.
Proof.
  induction cs as [|c cs IH]; intros [|o os] t Hl H; try done. injection Hl as Hl. cbn [app stream_trace] in *. destruct H as [H1 H].
  split; [done|]. by apply IH.
Qed.

Lemma stream_ret B j cs : forall os t st, length os = length cs -> Forall (fun o => exists x, o = ORet x) (seen j cs os) ->
  stream_trace B P t cs os -> t !! j = Some st -> scur P st (ops_on j cs) (seen j cs os).
Proof.
  induction cs as [|c cs IH]; intros [|o os] t st Hl Hs H Hj; try done. injection Hl as Hl.
  cbn [stream_trace] in H. destruct H as [H1 H].
  destruct c as [i f| | | | | | |]; try (by apply (IH os t)).
  rewrite seen_call in Hs. rewrite ops_on_call, seen_call. destruct (decide (i = j)) as [->|Hne].
  - apply Forall_cons in Hs as [[x ->] Hs].
    rewrite Hj in H1. cbn [scur]. split.
    { destruct st; [done|]. exists x. by destruct H1. }
    apply (IH os (follow t (Call j f) (ORet x))); try done. cbn [follow].
    destruct f; try (by destruct st); destruct x as [| | | | |k [er|]| | |]; rewrite ?Hj; try (by destruct st).
    + destruct st; [done|]. by rewrite lookup_insert.
    + destruct st; [done|]. by rewrite lookup_insert.
    + destruct st; [done|]. destruct H1 as [_ H1]. rewrite lookup_insert_ne; [done|]. intros ->. by rewrite (H1 j None) in Hj.
  - apply (IH os (follow t (Call i f) o)); try done. cbn [follow].
    destruct f; try done; destruct o as [[| | | | |k [er|]| | |]| |]; try done; destruct (t !! i) as [[|pos e]|] eqn:Hti; try done.
    + by rewrite lookup_insert_ne.
    + by rewrite lookup_insert_ne.
    + destruct H1 as [_ H1]. rewrite lookup_insert_ne; [done|]. intros ->. by rewrite (H1 j None) in Hj.
Qed.

Definition rest (st : cursor) : Z := match st with Shut => 0 | At pos _ => zlen d - Z.of_nat pos end.

Lemma stream_reads ps : forall st os n q e, within st ->
  scur P st (map Read ps) (os ++ [ORet (RRead n q (Some e))]) ->
  delivered (os ++ [ORet (RRead n q (Some e))]) = rest st.
Proof.
  induction ps as [|p ps IH]; intros st os n q e Hs H; [by destruct os|].
  assert (Hr : forall o, match st with
      | At pos ended => exists x, o = ORet x /\ P pos ended (Read p) x
      | Shut => o = ORet (closed_answer (Read p)) end ->
      exists n' q' err, o = ORet (RRead n' q' err) /\ within (next st (Read p) o) /\ rest st = n' + rest (next st (Read p) o) /\ (is_Some err -> rest (next st (Read p) o) = 0)).
  { intros o. destruct st as [|pos ended]; [intros ->; by eexists _, _, _|]. intros (x & -> & er & -> & Hc). destruct Hs as [Hp He].
    eexists _, _, _. split; [done|]. cbn. assert (is_Some er -> (length d <= pos + Nat.min (length p) (length d - pos))%nat) as Hx.
    { intros [ee ->]. destruct (ended || _) eqn:Ho; [|done]. destruct ended; [specialize (He eq_refl); lia|]. cbn [orb] in Ho. lia. }
    split; [split; [lia|]|]. { intros Hy. destruct er; [|done]. specialize (Hx ltac:(eauto)). lia. }
    unfold zlen. split; [lia|]. intros Hy. specialize (Hx Hy). lia. }
  destruct os as [|o os].
  - cbn [app map scur] in H. destruct H as [H1 _]. destruct (Hr _ H1) as (n' & q' & err & Hx & _ & Hl & He). injection Hx as <- <- <-.
    rewrite Hl, He by eauto. unfold delivered. cbn. lia.
  - cbn [app map scur] in H. destruct H as [H1 H].
    destruct (Hr _ H1) as (n' & q' & err & -> & Hw & Hl & _). rewrite Hl, <- (IH _ os n q e Hw H). done.
Qed.
End Streams.

Section Streams.
Context {W : Type} (E : env W) (fuel : nat).
Implicit Types h : heap W.

Lemma stream_exact r w h1 i cs h os D j csA hA osA z e :
  wrapped_once E fuel r w h1 i cs h os -> OSpin ∉ os -> streaming E fuel r h1 i D ->
  copy_of i cs os j -> goes_on E fuel r h csA hA osA -> read_to_end j csA osA z e ->
  z = -1 \/ delivered (seen j csA osA) = z \/ zlen (stream (calls_on r (h_log hA))) < D.
Proof.
  intros Hw Hs HD Hj HA (ps & xs & n & q & Ho & Hse).
  pose proof (wrapped_on _ _ _ _ _ _ _ _ _ _ _ _ Hw Hs HA) as HwA.
  pose proof (one_stream E fuel r w h1 i _ _ _ D HwA HD) as T. cbv zeta in T.
  set (d := stream (calls_on r (h_log hA))) in *. set (e0 := terminal D (calls_on r (h_log hA))) in *.
  pose proof (wrapped_length _ _ _ _ _ _ _ _ _ Hw Hs) as Hl.
  assert (Ht : map_Forall (fun _ => within d) (follows {[i := At 0 false]} cs os)).
  { eapply (within_steps D d e0 r _ cs os {[i := At 0 false]} Hl); [|by eapply stream_trace_pre].
    apply map_Forall_singleton. split; [lia|done]. }
  apply stream_trace_app in T; [|done].
  assert (exists st, follows {[i := At 0 false]} cs os !! j = Some st) as [st Hst].
  { unfold copy_of in Hj. change ({[i := true]} : handles) with ({[i := is_open (At 0 false)]} : handles) in Hj.
    rewrite <- (map_fmap_singleton is_open i (At 0 false)) in Hj. change (is_open <$> {[i := At 0 false]}) with (open_table {[i := At 0 false]}) in Hj.
    rewrite follows_tracks in Hj. unfold open_table in Hj. rewrite lookup_fmap in Hj.
    destruct (follows {[i := At 0 false]} cs os !! j) as [st|]; [by exists st|by destruct Hj]. }
  destruct HA as (HA & HsA & _). pose proof (Ht _ _ Hst) as Hin. cbn in Hin.
  assert (Hret : Forall (fun o => exists x, o = ORet x) (seen j csA osA)).
  { rewrite Hse. constructor; [eauto|]. apply Forall_app. split; [apply Forall_fmap, Forall_true; cbn; eauto|repeat constructor; eauto]. }
  pose proof (stream_ret _ _ _ _ _ j csA osA _ st (history_length _ _ _ _ _ _ HA HsA) Hret T Hst) as C. rewrite Ho, Hse in C.
  cbn [scur] in C. destruct C as [C1 C].
  assert (Hn : next st BytesRemaining (ORet (RInt z)) = st) by (by destruct st). rewrite Hn in C.
  rewrite Hse. pose proof (stream_reads D d e0 r ps st (map ORet xs) n q e Hin C) as Hd.
  change (delivered (ORet (RInt z) :: map ORet xs ++ [ORet (RRead n q (Some e))])) with (delivered (map ORet xs ++ [ORet (RRead n q (Some e))])).
  rewrite Hd. destruct st as [|pos ended]; [injection C1 as ->; auto|].
  destruct C1 as (x & Hx & C1). injection Hx as <-. cbn in C1. unfold rest. destruct C1 as [[_ C1]|[_ C1]]; injection C1 as ->; [auto|].
  destruct (D <? 0) eqn:HD0; [auto|]. right. destruct (Z.lt_total (zlen d) D) as [?|[?|Hgt]]; [auto|left; lia|].
  exfalso. destruct (polite_reader E fuel r w h1 i _ _ _ D HwA HD) as [_ Hle]. fold d in Hle. lia.
Qed.
End Streams.
