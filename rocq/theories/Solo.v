(** * A goroutine with a handle of its own: proofs of C52 *)
From stdpp Require Import gmap.
From Coq Require Import ZifyBool.
From Verif Require Export SoloSpec Copies.
From Verif Require LinMain.

Section Solo.
Context {W : Type} (E : env W) (fuel : nat).
Implicit Types h : heap W.

(** A sequential execution with the goroutine of each call. *)
Notation seqrun := (list (tid * (cmd * out res))).
Definition of_t (t : tid) (L : seqrun) : list (cmd * out res) := omap (fun x => if decide (fst x = t) then Some (snd x) else None) L.
Lemma of_t_app t L x : of_t t (L ++ [x]) = of_t t L ++ (if decide (fst x = t) then [snd x] else []).
Proof. unfold of_t. rewrite omap_app. f_equal. cbn. by destruct (decide _). Qed.

Lemma observed_app l x : observed (l ++ x) = observed l ++ observed x.
Proof. induction l as [|[]]; cbn; congruence. Qed.

Definition pend (t : tid) (evs : list cev) := fold_left (sees t) evs ([], None).
Lemma pend_app t evs e : pend t (evs ++ [e]) = sees t (pend t evs) e.
Proof. unfold pend. by rewrite fold_left_app. Qed.

Lemma history_snoc cs c h h1 os h2 o : history E fuel h cs = (h1, os) -> OSpin ∉ os -> exec E fuel h1 c = (h2, o) -> o <> OSpin ->
  history E fuel h (cs ++ [c]) = (h2, os ++ [o]).
Proof.
  intros H Hs He Ho. rewrite (history_app E fuel cs [c] _ _ _ H Hs). cbn. rewrite He. by destruct o.
Qed.

Lemma explained h l h' s : explains E fuel h (fun _ => LIdle) l h' s ->
  exists L : seqrun, history E fuel h (map (fst ∘ snd) L) = (h', map (snd ∘ snd) L) /\ OSpin ∉ map (snd ∘ snd) L /\
    forall t, match s t with
              | LIdle => pend t (observed l) = (of_t t L, None)
              | LCalled c => pend t (observed l) = (of_t t L, Some c)
              | LDone o => exists c acc, pend t (observed l) = (acc, Some c) /\ of_t t L = acc ++ [(c, o)]
              end.
Proof.
  intros H. remember (fun _ : tid => LIdle) as s0 eqn:Hs0. induction H as [h s|h0 s0 l h s t c H IH Hi|h0 s0 l h s t c h' o H IH Hc He Ho|h0 s0 l h s t o H IH Hd]; subst.
  - exists []. split; [done|]. split; [apply not_elem_of_nil|]. done.
  - destruct (IH eq_refl) as (L & H1 & H2 & H3). exists L. split; [done|]. split; [done|]. intros t'. specialize (H3 t'). rewrite observed_app. cbn. rewrite pend_app. cbn.
    destruct (decide (t = t')) as [->|Hne].
    + rewrite fn_lookup_insert. rewrite Hi in H3. by rewrite H3.
    + rewrite fn_lookup_insert_ne by done. done.
  - destruct (IH eq_refl) as (L & H1 & H2 & H3). exists (L ++ [(t, (c, o))]). rewrite !map_app. cbn.
    split; [by eapply history_snoc|]. split; [rewrite not_elem_of_app, elem_of_list_singleton; split; [done|congruence]|].
    intros t'. specialize (H3 t'). rewrite observed_app. cbn. rewrite app_nil_r, of_t_app. cbn.
    destruct (decide (t = t')) as [->|Hne].
    + rewrite fn_lookup_insert. rewrite Hc in H3. by exists c, (of_t t' L).
    + rewrite fn_lookup_insert_ne by done. by rewrite app_nil_r.
  - destruct (IH eq_refl) as (L & H1 & H2 & H3). exists L. split; [done|]. split; [done|]. intros t'. specialize (H3 t'). rewrite observed_app. cbn. rewrite pend_app. cbn.
    destruct (decide (t = t')) as [->|Hne].
    + rewrite fn_lookup_insert. rewrite Hd in H3. destruct H3 as (c & acc & H3 & H4). rewrite H3. cbn. by rewrite H4.
    + rewrite fn_lookup_insert_ne by done. done.
Qed.

Lemma idle_pend cf0 evs cf t : csteps E fuel cf0 evs cf -> cf_t cf0 t = Idle ->
  match cf_t cf t with Idle => snd (pend t evs) = None | Busy c _ => snd (pend t evs) = Some c end.
Proof.
  intros H H0. induction H as [|evs cf1 e cf2 H IH Hs]; [by rewrite H0|].
  destruct Hs as [t' c Hi Hu|t' c m h1 X a k L h2 x Hb Ha Hl Hs|t' c m h1 m1 o Hb Ha Ho]; cbn.
  - rewrite pend_app. cbn. destruct (decide (t' = t)) as [->|Hne]; [by rewrite fn_lookup_insert|by rewrite fn_lookup_insert_ne].
  - rewrite app_nil_r. destruct (decide (t' = t)) as [->|Hne]; [rewrite fn_lookup_insert; by rewrite Hb in IH|by rewrite fn_lookup_insert_ne].
  - rewrite pend_app. cbn. destruct (decide (t' = t)) as [->|Hne]; [by rewrite fn_lookup_insert|by rewrite fn_lookup_insert_ne].
Qed.

Lemma pend_inv t evs : (forall c o, (c, o) ∈ fst (pend t evs) -> Inv t c ∈ evs) /\ (forall c, snd (pend t evs) = Some c -> Inv t c ∈ evs).
Proof.
  induction evs as [|e evs IH] using rev_ind; [split; [intros c o Hx; by apply elem_of_nil in Hx|done]|].
  rewrite pend_app. destruct IH as [IH1 IH2]. destruct e as [t' c|t' o]; cbn; destruct (decide (t' = t)) as [->|Hne]; cbn; split; intros *; rewrite ?elem_of_app.
  - intros Hx. left. by eapply IH1.
  - intros [= <-]. right. by apply elem_of_list_singleton.
  - intros Hx. left. by eapply IH1.
  - intros Hx. left. by eapply IH2.
  - destruct (snd (pend t evs)) as [c'|]; [|intros Hx; left; by eapply IH1]. rewrite elem_of_app, elem_of_list_singleton. intros [Hx|Hx]; [left; by eapply IH1|]. injection Hx as -> ->. left. by apply IH2.
  - done.
  - intros Hx. left. by eapply IH1.
  - intros Hx. left. by eapply IH2.
Qed.

(** The calls on a handle used by one goroutine only. *)
Lemma only_t j t (L : seqrun) : (forall t' f o, (t', (Call j f, o)) ∈ L -> t' = t) ->
  ops_on j (map (fst ∘ snd) L) = ops_on j (map fst (of_t t L)) /\
  seen j (map (fst ∘ snd) L) (map (snd ∘ snd) L) = seen j (map fst (of_t t L)) (map snd (of_t t L)).
Proof.
  induction L as [|[t' [c o]] L IH]; intros H; [done|].
  assert (H' : forall t' f o, (t', (Call j f, o)) ∈ L -> t' = t) by (intros; eapply H; by right).
  destruct (IH H') as [IH1 IH2]. unfold of_t. cbn [omap list_omap fst snd map]. fold (of_t t L). cbn [compose fst snd].
  destruct (decide (t' = t)) as [->|Hne].
  - cbn [map fst snd]. unfold ops_on, seen in *. cbn. rewrite IH1, IH2. done.
  - assert (Hc : on_handle j c = None).
    { destruct c as [i f| | | | | | |]; try done. cbn. destruct (decide (i = j)) as [->|]; [|done]. exfalso. apply Hne. eapply H. by left. }
    unfold ops_on, seen in *. cbn. rewrite Hc. done.
Qed.

(** Every concurrent execution has a sequential one in which each goroutine sees
    the same. *)
Lemma sequential cf0 ks evs cf : goroutines E fuel cf0 ks evs cf ->
  exists cs os, history E fuel (cf_h cf0) cs = (cf_h cf, os) /\ OSpin ∉ os /\ Forall go_cmd cs /\ Forall (fun c => exists i f, c = Call i f) cs /\
    forall t j, owns t j evs -> ops_on j cs = ops_by t j evs /\ seen j cs os = seen_by t j evs.
Proof.
  intros ((w & evs0 & H0) & Hid & Hcl & Hks & Hcp & H & Hoc & Hgo & Hend).
  destruct (LinMain.linearized E fuel w evs0 cf0 ks evs cf H0 Hid Hcl Hks Hcp H Hoc) as (l & h' & s' & Hl & Hex & Hh).
  specialize (Hh Hend). destruct (explained _ _ _ _ Hex) as (L & H1 & H2 & H3). rewrite Hl in H3.
  assert (Hof : forall t, of_t t L = calls_of t evs).
  { intros t. specialize (H3 t). pose proof (idle_pend _ _ _ t H (Hid t)) as Hp. rewrite Hend in Hp. unfold calls_of. fold (pend t evs).
    destruct (s' t); [by rewrite H3|by rewrite H3 in Hp|]. destruct H3 as (c & acc & H3 & _). by rewrite H3 in Hp. }
  assert (Hin : forall t c o, (t, (c, o)) ∈ L -> Inv t c ∈ evs).
  { intros t c o Hx. apply (proj1 (pend_inv t evs) c o). change (fst (pend t evs)) with (calls_of t evs). rewrite <- Hof.
    unfold of_t. apply elem_of_list_omap. exists (t, (c, o)). split; [done|]. cbn. by rewrite decide_True. }
  exists (map (fst ∘ snd) L), (map (snd ∘ snd) L). rewrite Hh. split; [done|]. split; [done|].
  split. { apply Forall_fmap, Forall_forall. intros [t [c o]] Hx. cbn. by eapply Hgo, Hin. }
  split. { apply Forall_fmap, Forall_forall. intros [t [c o]] Hx. cbn. by eapply Hoc, Hin. }
  intros t j Ht. unfold ops_by, seen_by. rewrite <- Hof. apply only_t. intros t' f o Hx. eapply Ht, Hin, Hx.
Qed.

Lemma ops_on_map j fs : ops_on j (map (Call j) fs) = fs.
Proof. induction fs as [|f fs IH]; [done|]. cbn [map]. rewrite ops_on_call, decide_True by done. by rewrite IH. Qed.
Lemma seen_map j fs : forall os, length os = length fs -> seen j (map (Call j) fs) os = os.
Proof. induction fs as [|f fs IH]; intros [|o os] Hl; try done. injection Hl as Hl. cbn [map]. rewrite seen_call, decide_True by done. by rewrite IH. Qed.

Lemma go_map j cs : Forall go_cmd cs -> Forall go_cmd (map (Call j) (ops_on j cs)).
Proof.
  induction 1 as [|c cs Hc H IH]; [constructor|]. destruct c as [i f| | | | | | |]; try done. rewrite ops_on_call. destruct (decide (i = j)); [|done]. constructor; done.
Qed.

Lemma fam_no_spin F j fs : forall t os, is_Some (t !! j) -> fam_trace F t (map (Call j) fs) os -> (length os <= length fs)%nat -> OSpin ∉ os.
Proof.
  induction fs as [|f fs IH]; intros t [|o os] [st Hj] H Hl; cbn in Hl; try (apply not_elem_of_nil); try lia.
  cbn [map fam_trace] in H. rewrite Hj in H. rewrite not_elem_of_cons. destruct o as [x|pn|]; [|split; [done|]; destruct H as [_ H]; apply (IH t os); [eauto|done|lia]|done].
  split; [done|]. destruct H as (t' & (st1 & st2 & H1 & H2 & H3) & H). apply (IH t' os); [|done|lia].
  assert (Hd : forall k s, is_Some (<[k := s]> t !! j)) by (intros k s; destruct (decide (k = j)) as [->|]; [rewrite lookup_insert|rewrite lookup_insert_ne by done; rewrite Hj]; eauto).
  destruct st1; [subst; by apply Hd|]. destruct f; try (by subst; apply Hd). destruct x; try (by subst; apply Hd). destruct H3 as [_ ->]. apply Hd.
Qed.
Lemma history_le cs : forall h h1 os, history E fuel h cs = (h1, os) -> (length os <= length cs)%nat.
Proof.
  induction cs as [|c cs IH]; intros h h1 os H; cbn in H; [by injection H as <- <-|].
  destruct (exec E fuel h c) as [h' o]. destruct o.
  3: { injection H as <- <-. cbn. lia. }
  all: destruct (history E fuel h' cs) as [h2 os'] eqn:Hh; injection H as <- <-; cbn; apply le_n_S; by eapply IH.
Qed.

Lemma solo_memory h c d : c = NewBytes d \/ (exists s, c = NewString s /\ list_ascii_of_string s = d) \/ (c = NewEmpty /\ d = []) ->
  go_cmd c ->
  forall h1 i cs os cf0 ks evs cf t j hB osB,
  exec E fuel h c = (h1, ORet (RBody i None)) -> history E fuel h1 cs = (cf_h cf0, os) -> Forall go_cmd cs -> OSpin ∉ os -> copy_of i cs os j ->
  goroutines E fuel cf0 ks evs cf -> owns t j evs -> Forall (fun f => is_WriteTo f = false) (ops_by t j evs) ->
  history E fuel (cf_h cf0) (map (Call j) (ops_by t j evs)) = (hB, osB) ->
  Forall2 (alike false) (seen_by t j evs) osB.
Proof.
  intros Hc Hgo h1 i cs os cf0 ks evs cf t j hB osB He H Hg Hs Hj Hgr Hown Hw HB.
  assert (HsB : OSpin ∉ osB).
  { destruct (in_memory_cursors W E fuel h c d Hc Hgo) as (h1' & i' & He' & _ & Hall). rewrite He in He'. injection He' as <- <-.
    pose proof (history_app E fuel cs (map (Call j) (ops_by t j evs)) _ _ _ H Hs) as Hx. rewrite HB in Hx.
    destruct (sequential _ _ _ _ Hgr) as (csA & osA & HA & HsA & HgA & HcA & Hops). destruct (Hops t j Hown) as [Ho _].
    assert (Hgx : Forall go_cmd (cs ++ map (Call j) (ops_by t j evs))) by (apply Forall_app; split; [done|rewrite <- Ho; by apply go_map]).
    pose proof (Hall _ _ _ Hgx Hx) as T. cbn [snd] in T.
    assert (Hl : length os = length cs) by (by eapply history_length).
    destruct (fam_trace_app _ _ _ _ _ _ _ _ Hl T T) as (t1 & T1 & _ & Hin).
    eapply fam_no_spin; [|exact T1|]; [apply Hin; by rewrite map_fmap_singleton|]. apply history_le in HB. rewrite map_length in HB. lia. }
  destruct (memory_copies E fuel h c d Hc Hgo) as (h1' & i' & He' & Hall). rewrite He in He'. injection He' as <- <-.
  destruct (sequential _ _ _ _ Hgr) as (csA & osA & HA & HsA & HgA & HcA & Hops). destruct (Hops t j Hown) as [Ho Hse].
  rewrite <- Hse, <- (seen_map j (ops_by t j evs) osB); [|rewrite <- (map_length (Call j) (ops_by t j evs)); by eapply history_length].
  eapply (Hall cs (cf_h cf0) os j csA (cf_h cf) osA _ hB osB); try done.
  - rewrite !Forall_app. split; [done|]. split; [done|]. rewrite <- Ho. by apply go_map.
  - rewrite !not_elem_of_app. done.
  - by rewrite ops_on_map.
  - by rewrite Ho.
Qed.

Lemma solo_goes_on r cf0 ks evs cf t j hB osB : goroutines E fuel cf0 ks evs cf -> owns t j evs -> feasible (cf_h cf) ->
  history E fuel (cf_h cf0) (map (Call j) (ops_by t j evs)) = (hB, osB) -> OSpin ∉ osB -> feasible hB ->
  exists csA osA, goes_on E fuel r (cf_h cf0) csA (cf_h cf) osA /\
    goes_on E fuel r (cf_h cf0) (map (Call j) (ops_by t j evs)) hB osB /\ ops_on j csA = ops_by t j evs /\ seen j csA osA = seen_by t j evs /\
    seen j (map (Call j) (ops_by t j evs)) osB = osB.
Proof.
  intros Hgr Hown Hf HB HsB HfB. destruct (sequential _ _ _ _ Hgr) as (csA & osA & HA & HsA & HgA & HcA & Hops). destruct (Hops t j Hown) as [Ho Hse].
  exists csA, osA. split.
  { split; [done|]. split; [done|]. split; [done|]. split; [|done]. eapply Forall_impl; [exact HcA|]. intros ? (i & f & ->) [?|[? ?]]; done. }
  split.
  { split; [done|]. split; [done|]. split; [rewrite <- Ho; by apply go_map|]. split; [|done]. apply Forall_fmap, Forall_true. intros f [?|[? ?]]; done. }
  split; [done|]. split; [done|]. apply seen_map. rewrite <- (map_length (Call j) (ops_by t j evs)). by eapply history_length.
Qed.

Lemma solo_seekable r live d :
  serves_at E r live d false /\ cp_readerat (ev_caps E r) = true \/
  serves_seek E r live d false /\ cp_readerat (ev_caps E r) = false /\ cp_seeker (ev_caps E r) = true ->
  forall w h1 i cs os D cf0 ks evs cf t j hB osB,
  live w -> wrapped_once E fuel r w h1 i cs (cf_h cf0) os -> OSpin ∉ os -> announces E fuel h1 i D -> 0 <= D <= zlen d -> copy_of i cs os j ->
  goroutines E fuel cf0 ks evs cf -> feasible (cf_h cf) -> owns t j evs -> Forall (fun f => is_WriteTo f = false) (ops_by t j evs) ->
  history E fuel (cf_h cf0) (map (Call j) (ops_by t j evs)) = (hB, osB) -> feasible hB ->
  Forall2 (alike true) (seen_by t j evs) osB.
Proof.
  intros Hsrc w h1 i cs os D cf0 ks evs cf t j hB osB Hl Hw Hs Han HD Hj Hgr Hf Hown Hwt HB HfB.
  assert (HsB : OSpin ∉ osB).
  { destruct (sequential _ _ _ _ Hgr) as (csA & osA & HA & HsA & HgA & HcA & Hops). destruct (Hops t j Hown) as [Ho _].
    assert (Hwx : wrapped_once E fuel r w h1 i (cs ++ map (Call j) (ops_by t j evs)) hB (os ++ osB)).
    { destruct Hw as (Hge & cs0 & os0 & h0 & new & Hgo & Hnw & Hwr & H0 & H1 & H2 & _).
      split; [done|]. exists cs0, os0, h0, new. split; [rewrite app_comm_cons, app_assoc; apply Forall_app; split; [done|rewrite <- Ho; apply go_map; done]|].
      split; [rewrite app_assoc; apply Forall_app; split; [done|]; apply Forall_fmap, Forall_true; intros f [?|[? ?]]; done|].
      do 3 (split; [done|]). split; [|done]. rewrite (history_app E fuel cs _ _ _ _ H2 Hs), HB. done. }
    assert (T : fam_trace (first_bytes r false D d) {[ i := Spec.At 0 false ]} (cs ++ map (Call j) (ops_by t j evs)) (os ++ osB)).
    { destruct Hsrc as [[? ?]|(? & ? & ?)]; [by eapply cursors_at|by eapply cursors_seek]. }
    assert (Hll : length os = length cs) by (by eapply wrapped_length).
    destruct (fam_trace_app _ _ _ _ _ _ _ _ Hll T T) as (t1 & T1 & _ & Hin).
    eapply fam_no_spin; [|exact T1|]; [apply Hin; by rewrite map_fmap_singleton|]. apply history_le in HB. rewrite map_length in HB. lia. }
  destruct (solo_goes_on r _ _ _ _ t j _ _ Hgr Hown Hf HB HsB HfB) as (csA & osA & HA & HB' & Ho & Hse & HseB).
  rewrite <- Hse, <- HseB. eapply (seekable_copies E fuel r live d Hsrc w h1 i cs (cf_h cf0) os D j); try done.
  - by rewrite ops_on_map.
  - by rewrite Ho.
Qed.

Lemma solo_stream r gp d e : streams E r gp d e ->
  forall w h1 i cs os D cf0 ks evs cf t j hB osB,
  gp w = 0%nat -> wrapped_once E fuel r w h1 i cs (cf_h cf0) os -> OSpin ∉ os -> streaming E fuel r h1 i D -> D <> zlen d \/ e = EOF -> copy_of i cs os j ->
  goroutines E fuel cf0 ks evs cf -> feasible (cf_h cf) -> owns t j evs -> Forall (fun f => is_BytesRemaining f = false) (ops_by t j evs) ->
  history E fuel (cf_h cf0) (map (Call j) (ops_by t j evs)) = (hB, osB) -> OSpin ∉ osB -> feasible hB ->
  Forall2 (alike true) (seen_by t j evs) osB.
Proof.
  intros Hstr w h1 i cs os D cf0 ks evs cf t j hB osB Hg Hw Hs HD Hun Hj Hgr Hf Hown Hbr HB HsB HfB.
  destruct (solo_goes_on r _ _ _ _ t j _ _ Hgr Hown Hf HB HsB HfB) as (csA & osA & HA & HB' & Ho & Hse & HseB).
  rewrite <- Hse, <- HseB. eapply (stream_copies E fuel r gp d e Hstr w h1 i cs (cf_h cf0) os D j); try done.
  - by rewrite ops_on_map.
  - by rewrite Ho.
Qed.
End Solo.
