(** * What Serve delivers, for any source of bytes (proofs) *)
From stdpp Require Import gmap.
From Coq Require Import ZifyBool.
From Verif Require Import RespFacts DeliverSpec Post Quiet Preserve ServeProofs WriterProofs ServeMain Own.

From Verif Require PanicProofs.

(** ** Buffers *)
Lemma copy_buffer_ok : copy_buffer <> [] /\ zlen copy_buffer <= max_slice.
Proof. split; [done|]. unfold zlen, copy_buffer. rewrite replicate_length. unfold max_slice. lia. Qed.
Lemma discard_buffer_ok : discard_buffer <> [] /\ zlen discard_buffer <= max_slice.
Proof. split; [done|]. unfold zlen, discard_buffer. rewrite replicate_length. unfold max_slice. lia. Qed.

(** ** Feasible states *)
Section Feas.
Context {V : Type} (U : uenv V) (fuel : nat).
Implicit Types s : state V.
Definition fR s s' : Prop := feasible (s_h s') -> feasible (s_h s).
Global Instance fR_refl : Reflexive fR. Proof. intros s H. exact H. Qed.
Global Instance fR_trans : Transitive fR. Proof. intros s1 s2 s3 H1 H2 H. auto. Qed.
Lemma uexec_feasible h c h' o : uexec U fuel h c = (h', o) -> feasible h' -> feasible h.
Proof. apply PanicProofs.xexec_feasible. Qed.
Lemma f_cmd c : pres fR (body_cmd U fuel c).
Proof. intros s. unfold body_cmd, fR. destruct (uexec _ _ _ _) as [h o] eqn:Hex. cbn. by eapply uexec_feasible. Qed.
Lemma f_call b f : pres fR (body_call U fuel b f).
Proof. apply pres_bind; [apply _|by apply pres_of_opt; apply _|]. intros i. apply f_cmd. Qed.
Lemma f_on_writer {A} (m : wm A) : pres fR (on_writer m).
Proof. intros s. unfold on_writer. destruct (m _) as [w [a|e]]; intros H; exact H. Qed.
Lemma f_log_u e : pres fR (log_u (V:=V) e).
Proof. intros s H. exact H. Qed.
Lemma f_lookup_wrap k : pres fR (lookup_wrap (V:=V) k).
Proof. unfold lookup_wrap. pres_go. Qed.
Local Hint Resolve f_call f_on_writer f_log_u f_lookup_wrap : pres.
Lemma f_readfrom_loop n u b last : pres fR (readfrom_loop U fuel n u b last).
Proof.
  revert last. induction n as [|n IH]; intros last; cbn [readfrom_loop]; [pres_go|]. intros s. cbv zeta. destruct (u_readfrom _ _ _ _) as [v [f|ans]].
  - set (s1 := put_h s _). assert (Hs1 : fR s s1) by (intros Hx; exact Hx). etrans; [exact Hs1|]. pose proof (f_call b f s1) as H.
    destruct (body_call U fuel b f s1) as [s2 [r|e|]]; cbn in H; [etrans; [exact H|apply IH]..|exact H].
  - intros H. exact H.
Qed.
Local Hint Resolve f_readfrom_loop : pres.
Lemma f_raw_ReadFrom by_ u b : pres fR (raw_ReadFrom U fuel by_ u b).
Proof. unfold raw_ReadFrom. pres_go. Qed.
Lemma f_discard_loop n b buf t : pres fR (discard_loop U fuel n b buf t).
Proof. revert buf t. induction n; intros; cbn [discard_loop]; cbv zeta; pres_go. Qed.
Lemma f_slice (buf : bytes) nr : pres (V:=V) fR (fun s => match slice buf 0 nr with Some p => (s, ORet p) | None => (s, OPanic PRange) end).
Proof. intros s. destruct (slice _ _ _); intros H; exact H. Qed.
Local Hint Resolve f_raw_ReadFrom f_discard_loop f_slice : pres.
Lemma f_copy_loop n k b buf t : pres fR (copy_loop U fuel n k b buf t).
Proof. revert buf t. induction n; intros; cbn [copy_loop]; cbv zeta; pres_go. Qed.
Lemma f_write_to k b : pres fR (write_to U fuel k b).
Proof. unfold write_to. pres_go. Qed.
Local Hint Resolve f_copy_loop f_write_to : pres.
Lemma f_copy_discard b : pres fR (copy_discard U fuel b).
Proof. unfold copy_discard. pres_go. Qed.
Local Hint Resolve f_copy_discard : pres.
Lemma f_any_ReadFrom k b : pres fR (any_ReadFrom U fuel k b).
Proof. unfold any_ReadFrom, wrap_ReadFrom. pres_go. Qed.
Local Hint Resolve f_any_ReadFrom : pres.
Lemma f_io_Copy k b : pres fR (io_Copy U fuel k b).
Proof. unfold io_Copy. pres_go. Qed.
Lemma feas_bind {A B} (m : M (V:=V) A) (k : A -> M B) s s1 a s' o :
  m s = (s1, ORet a) -> ybind m k s = (s', o) -> (forall a, pres fR (k a)) -> feasible (s_h s') -> feasible (s_h s1).
Proof. intros Hm. unfold ybind. rewrite Hm. intros H Hk. specialize (Hk a s1). rewrite H in Hk. exact Hk. Qed.
End Feas.

(** ** Sources *)
Section Flow.
Context {V : Type} (U : uenv V) (fuel : nat).
Notation E := (wenv U).

(** A family of handles: [Inv T h] says that [T] gives the bytes still to come of
    each open handle. *)
Record flow (vR : V -> V -> Prop) (busy : Prop) (wt : bool) (Inv : gmap nat bytes -> heap (wst V) -> Prop) : Prop := {
  fl_safe : no_hazard U;
  fl_kind : forall T h i R, Inv T h -> T !! i = Some R -> exists b, h_b h !! i = Some b /\ is_WriterTo b = wt /\ shut b = false;
  fl_world : forall T h w, Inv T h -> vR (v_v (h_w h)) (v_v w) -> Inv T (heap_w h w);
  fl_read : forall T h i R p h' o, Inv T h -> T !! i = Some R -> zlen p <= max_slice ->
    exec E fuel h (Call i (Read p)) = (h', o) -> feasible h' ->
    o = OSpin /\ busy \/
    exists n q err R', o = ORet (RRead (Z.of_nat n) q err) /\ (n <= length p)%nat /\ R = take n q ++ R' /\
      Inv (<[i := R']> T) h' /\ (err = None /\ n = length p \/ err = Some EOF /\ R' = []);
  fl_writeto : forall T h i R k w', wt = true -> Inv T h -> T !! i = Some R ->
    any_Write U k R (h_w h) = (w', inl (zlen R, None)) -> vR (v_v (h_w h)) (v_v w') ->
    exists h', exec E fuel h (Call i (WriteTo k)) = (h', ORet (RWriteTo (zlen R) None)) /\ Inv (<[i := []]> T) h' /\
      (h_w h' = w' \/ R = [] /\ h_w h' = h_w h);
  fl_close : forall T h i R h' o, Inv T h -> T !! i = Some R ->
    exec E fuel h (Call i Close) = (h', o) -> feasible h' ->
    exists err, o = ORet (RErr err) /\ Inv (delete i T) h';
  fl_copy : forall T h i R h' o, Inv T h -> T !! i = Some R ->
    exec E fuel h (Call i Copy) = (h', o) -> feasible h' ->
    exists j, o = ORet (RBody j None) /\ T !! j = None /\ Inv (<[j := R]> T) h'
}.
End Flow.

Section D.
Context {V : Type} (U : uenv V) (fuel : nat) (vR : V -> V -> Prop) (busy : Prop) (wt : bool) (Inv : gmap nat bytes -> heap (wst V) -> Prop).
Hypothesis Hfl : flow U fuel vR busy wt Inv.
Hypothesis Hcalm : calm U vR.
Hypothesis Hrefl : Reflexive vR.
Hypothesis Htrans : Transitive vR.
Context (u : uid) (got : V -> bytes).
Hypothesis Hac : accepting U u got.
Implicit Types s : state V.
Notation E := (wenv U).

(** Calls on Bodies other than WriteTo leave the writers alone. *)
Definition same (w w' : wst V) : Prop := got (v_v w') = got (v_v w) /\ v_objs w' = v_objs w.
Global Instance same_refl : Reflexive same. Proof. by intros w. Qed.
Global Instance same_trans : Transitive same. Proof. intros w1 w2 w3 [H1 H2] [H3 H4]. split; congruence. Qed.
Lemma same_exec h i f h' o : (forall w, f <> WriteTo w) -> exec E fuel h (Call i f) = (h', o) -> same (h_w h) (h_w h').
Proof.
  intros Hf. unfold exec, cmd_prog. destruct (h_b h !! i) as [b|]; [|by intros [= <- <-]]. intros H. pose proof (q_method fuel b i f Hf) as Hq.
  apply (quiet_run E same) with (h := h) in Hq; try apply _; cbn.
  - by rewrite H in Hq.
  - intros w r p. pose proof (ac_read _ _ _ Hac (v_v w) r p) as Hx. by destruct (ev_read _ _ _ _).
  - intros w r p off. pose proof (ac_readat _ _ _ Hac (v_v w) r p off) as Hx. by destruct (ev_readat _ _ _ _ _).
  - intros w r p off. pose proof (ac_seek _ _ _ Hac (v_v w) r p off) as Hx. by destruct (ev_seek _ _ _ _ _).
  - intros w r. pose proof (ac_close _ _ _ Hac (v_v w) r) as Hx. by destruct (ev_close _ _ _).
  - intros w r. pose proof (ac_stat _ _ _ Hac (v_v w) r) as Hx. by destruct (ev_stat _ _ _).
Qed.

(** ** The writer [k]: the outside writer [u], or a wrapper of it that has sent its status *)
Context (k : wid).
Record sink (q : bool) (acc : bytes) (w : wst V) : Prop := {
  sk_obj : match v_objs w !! k with
    | Some (WRaw u') => u' = u /\ q = false
    | Some (WWrap x) => ww_next x = u /\ ww_status x <> 0 /\ q = ww_isHEAD x || (ww_status x =? 204) /\ good_caps U x
    | _ => False
    end;
  sk_got : got (v_v w) = acc }.
Lemma sink_same q acc w w' : sink q acc w -> same w w' -> sink q acc w'.
Proof. intros [H1 H2] [H3 H4]. constructor; [by rewrite H4|congruence]. Qed.
Lemma maybe_noop w x : v_objs w !! k = Some (WWrap x) -> ww_status x <> 0 -> wrap_MaybeWriteHeader U k StatusOK w = (w, inl tt).
Proof. intros Hk Hx. unfold wrap_MaybeWriteHeader, wbind, wget. cbn. rewrite Hk. by replace (ww_status x =? 0) with false by lia. Qed.
Lemma sink_write q acc w p : sink q acc w ->
  exists w', any_Write U k p w = (w', inl (zlen p, None)) /\ sink q (if q then acc else acc ++ p) w' /\ vR (v_v w) (v_v w').
Proof.
  intros [Ho Hg]. destruct (ac_write _ _ _ Hac (v_v w) p) as (v' & Hw & Hgot). pose proof (ca_write _ _ Hcalm (v_v w) u p) as Hv. rewrite Hw in Hv. cbn in Hv.
  unfold any_Write. destruct (v_objs w !! k) as [[|u'|x]|] eqn:Hk; try done.
  - destruct Ho as [-> ->]. unfold raw_Write. rewrite Hw. eexists. split; [done|]. split; [|done]. constructor; [cbn; by rewrite Hk|]. cbn. congruence.
  - destruct Ho as (Hn & Hs & -> & Hc). unfold wrap_Write, wbind. rewrite (maybe_noop w x) by done. unfold wget. rewrite Hk.
    change (ww_status x =? StatusNoContent) with (ww_status x =? 204).
    destruct (ww_isHEAD x || (ww_status x =? 204)) eqn:Hq.
    + eexists. split; [done|]. split; [|apply Hrefl]. constructor; [rewrite Hk; by rewrite Hq|done].
    + unfold raw_Write. rewrite Hn, Hw. cbn. pose proof (zlen_nonneg p). unfold wassert. replace (zlen p >=? 0) with true by lia. cbn. rewrite Hk.
      eexists. split; [done|]. split; [|done]. constructor; cbn; [|congruence].
      rewrite list_lookup_insert by (by eapply lookup_lt_Some). cbn. done.
Qed.

(** ** The loops *)
Context (i : nat).
Lemma call_i f s : body_call U fuel (Some i) f s = let '(h, o) := exec E fuel (s_h s) (Call i f) in (put_h s h, o).
Proof. rewrite <- uexec_safe; [done|]. exact (fl_safe _ _ _ _ _ _ Hfl). Qed.
Definition after (T : gmap nat bytes) q acc R s : Prop := Inv (<[i := []]> T) (s_h s) /\ sink q (if q : bool then acc else acc ++ R) (world s).

Lemma copy_loop_run n : forall T R q acc buf t s s' o,
  Inv T (s_h s) -> T !! i = Some R -> sink q acc (world s) -> buf <> [] -> zlen buf <= max_slice ->
  copy_loop U fuel n k (Some i) buf t s = (s', o) -> feasible (s_h s') ->
  (o = OSpin -> busy \/ (n < length R + 1)%nat) /\
  (o <> OSpin -> exists z, o = ORet (z, None) /\ after T q acc R s').
Proof.
  induction n as [|n IH]; intros T R q acc buf t s s' o HI HT Hs Hb Hm H Hf; cbn [copy_loop] in H; cbv zeta in H.
  { injection H as <- <-. split; [intros _; right; lia|done]. }
  unfold ybind at 1 in H. rewrite call_i in H. destruct (exec E fuel (s_h s) (Call i (Read buf))) as [h1 o1] eqn:Hex.
  assert (Hf1 : feasible h1).
  { destruct o1 as [r|e|]; [|by injection H as <- _..]. destruct r; try (by injection H as <- _).
    match type of H with ?m (put_h s h1) = _ => assert (Hp : pres fR m) end.
    { pose proof (fun p t => f_copy_loop U fuel n k (Some i) p t). pose proof (@f_on_writer V). pose proof (@f_slice V). pres_go. }
    specialize (Hp (put_h s h1)). rewrite H in Hp. by apply Hp. }
  assert (Hsm : same (h_w (s_h s)) (h_w h1)) by (by apply (same_exec _ _ _ _ _ (fun w (Hz : Read buf = WriteTo w) => ltac:(discriminate Hz)) Hex)).
  destruct (fl_read _ _ _ _ _ _ Hfl _ _ _ _ _ _ _ HI HT Hm Hex Hf1) as [[-> Hbu]|(nr & buf' & err & R' & -> & Hn & -> & HI' & Herr)].
  { injection H as <- <-. split; [by left|done]. }
  pose proof (read_len _ _ _ _ _ _ _ _ _ Hex) as Hl.
  apply (sink_same _ _ _ h1.(h_w)) in Hs; [|done].
  assert (Hlb : buf' <> []) by (intros ->; destruct buf; [done|discriminate Hl]).
  assert (Hmb : zlen buf' <= max_slice) by (unfold zlen in *; lia).
  assert (Hsl : slice buf' 0 (Z.of_nat nr) = Some (take nr buf')).
  { rewrite slice_ok by (unfold zlen; lia). cbn. rewrite drop_0. do 2 f_equal. lia. }
  assert (Hw : exists s2 t2, (if Z.of_nat nr >? 0
      then ybind (fun s => match slice buf' 0 (Z.of_nat nr) with Some p => (s, ORet p) | None => (s, OPanic PRange) end) (fun p =>
           ybind (on_writer (any_Write U k p)) (fun '(nw, ew) =>
             match (if (nw <? 0) || (Z.of_nat nr <? nw) then match ew with None => Some ErrInvalidWrite | _ => ew end else ew) with
             | Some e => yret (Some (Some e), wrap64 (t + (if (nw <? 0) || (Z.of_nat nr <? nw) then 0 else nw)))
             | None => if negb (Z.of_nat nr =? (if (nw <? 0) || (Z.of_nat nr <? nw) then 0 else nw)) then yret (Some (Some ErrShortWrite), wrap64 (t + (if (nw <? 0) || (Z.of_nat nr <? nw) then 0 else nw)))
                       else yret (None, wrap64 (t + (if (nw <? 0) || (Z.of_nat nr <? nw) then 0 else nw)))
             end))
      else yret (None, t)) (put_h s h1) = (s2, ORet (None : option (option error), t2)) /\
    Inv (<[i := R']> T) (s_h s2) /\ sink q (if q then acc else acc ++ take nr buf') (world s2)).
  { destruct (Z.of_nat nr >? 0) eqn:Hnr.
    - unfold ybind. rewrite Hsl. unfold on_writer. cbn [s_h put_h]. destruct (sink_write q acc (h_w h1) (take nr buf') Hs) as (w' & Hw & Hs' & Hv). rewrite Hw.
      assert (Hz : zlen (take nr buf') = Z.of_nat nr) by (unfold zlen; rewrite take_length; lia). rewrite Hz.
      replace ((Z.of_nat nr <? 0) || (Z.of_nat nr <? Z.of_nat nr)) with false by lia. rewrite Z.eqb_refl. cbn.
      eexists _, _. split; [done|]. split; [|done]. by apply (fl_world _ _ _ _ _ _ Hfl).
    - assert (nr = 0%nat) as -> by lia. eexists _, _. split; [done|]. split; [done|]. rewrite take_0, app_nil_r. by destruct q. }
  destruct Hw as (s2 & t2 & Hw & HI2 & Hs2). unfold ybind at 1 in H.
  match type of H with match ?x with _ => _ end = _ => replace x with (s2, @ORet (option (option error) * Z) (None, t2)) in H end. clear Hw.
  destruct Herr as [[-> ->]|[-> ->]].
  - assert (HTi : <[i := R']> T !! i = Some R') by apply lookup_insert.
    destruct (IH _ R' q _ buf' _ s2 s' o HI2 HTi Hs2 Hlb Hmb H Hf) as [H1 H2]. split.
    + intros Ho. destruct (H1 Ho) as [?|Hlt]; [by left|right]. rewrite app_length, take_length. rewrite Hl. destruct buf; [done|cbn [length]; lia].
    + intros Ho. destruct (H2 Ho) as (z & -> & HA & HS). exists z. split; [done|]. rewrite insert_insert in HA. split; [done|]. destruct q; [done|]. by rewrite app_assoc.
  - injection H as <- <-. split; [done|]. intros _. eexists. split; [done|]. split; [done|]. rewrite app_nil_r. done.
Qed.

Lemma readfrom_loop_run n : forall T R acc pend last s s' o, wc_readerfrom (u_caps U u) = true ->
  Inv T (s_h s) -> T !! i = Some R -> got (v_v (world s)) = acc ->
  last = None /\ pend = [] \/ (exists m p, last = Some (ORet (RRead m p None)) /\ pend = take (Z.to_nat m) p) ->
  readfrom_loop U fuel n u (Some i) last s = (s', o) -> feasible (s_h s') ->
  (o = OSpin -> busy \/ (n < length R + 2)%nat) /\
  (o <> OSpin -> exists z, o = ORet (inl (z, None)) /\ 0 <= z /\ Inv (<[i := []]> T) (s_h s') /\
     got (v_v (world s')) = acc ++ pend ++ R /\ v_objs (world s') = v_objs (world s)).
Proof.
  induction n as [|n IH]; intros T R acc pend last s s' o Hc HI HT Hg Hlast H Hf; cbn [readfrom_loop] in H; cbv zeta in H.
  { injection H as <- <-. split; [intros _; right; lia|done]. }
  assert (Hu : exists v p, u_readfrom U (v_v (world s)) u last = (v, inl (Read p)) /\ p <> [] /\ zlen p <= max_slice /\ got v = acc ++ pend).
  { destruct Hlast as [[-> ->]|(m & p & -> & ->)].
    - destruct (ac_start _ _ _ Hac Hc (v_v (world s))) as (v & p & H1 & H2 & H3 & H4). exists v, p. rewrite app_nil_r, H4, Hg. done.
    - destruct (ac_more _ _ _ Hac Hc (v_v (world s)) m p) as (v & p' & H1 & H2 & H3 & H4). exists v, p'. rewrite H4, Hg. done. }
  destruct Hu as (v & p & Hu & Hp & Hm & Hgv). unfold world in Hu. pose proof (ca_readfrom _ _ Hcalm (v_v (h_w (s_h s))) u last) as Hv. rewrite Hu in H, Hv. cbn [fst] in Hv.
  rewrite call_i in H. set (h0 := heap_w (s_h s) (put_v (h_w (s_h s)) v)) in *.
  assert (HI0 : Inv T h0) by (by apply (fl_world _ _ _ _ _ _ Hfl)).
  change (s_h (put_h s h0)) with h0 in H.
  destruct (exec E fuel h0 (Call i (Read p))) as [h1 o1] eqn:Hex.
  assert (Hf1 : feasible h1).
  { assert (Hp' : forall l, pres fR (readfrom_loop U fuel n u (Some i) l)) by (intros; apply f_readfrom_loop).
    destruct o1 as [r|e|]; [| |by injection H as <- _];
      (match type of H with readfrom_loop _ _ _ _ _ ?l _ = _ => specialize (Hp' l (put_h (put_h s h0) h1)) end; rewrite H in Hp'; exact (Hp' Hf)). }
  assert (Hsm : same (h_w h0) (h_w h1)) by (by apply (same_exec _ _ _ _ _ (fun w (Hz : Read p = WriteTo w) => ltac:(discriminate Hz)) Hex)).
  destruct Hsm as [Hsg Hso]. change (got (v_v (h_w h1)) = got v) in Hsg. change (v_objs (h_w h1) = v_objs (world s)) in Hso.
  destruct (fl_read _ _ _ _ _ _ Hfl _ _ _ _ _ _ _ HI0 HT Hm Hex Hf1) as [[-> Hbu]|(nr & q & err & R' & -> & Hn & -> & HI' & Herr)].
  { injection H as <- <-. split; [by left|done]. }
  assert (HTi : <[i := R']> T !! i = Some R') by apply lookup_insert.
  destruct Herr as [[-> ->]|[-> ->]].
  - destruct (IH _ R' (acc ++ pend) (take (length p) q) (Some (ORet (RRead (Z.of_nat (length p)) q None))) (put_h (put_h s h0) h1) s' o Hc HI' HTi) as [H1 H2].
    { unfold world. cbn. congruence. } { right. eexists _, _. split; [reflexivity|]. by rewrite Nat2Z.id. } { done. } { done. }
    pose proof (read_len _ _ _ _ _ _ _ _ _ Hex) as Hl. split.
    + intros Ho. destruct (H1 Ho) as [?|Hlt]; [by left|right]. rewrite app_length, take_length, Hl. destruct p; [done|cbn [length]; lia].
    + intros Ho. destruct (H2 Ho) as (z & -> & Hz & HA & HS & Hobj). exists z. split; [done|]. split; [done|]. rewrite insert_insert in HA. split; [done|].
      split; [by rewrite HS, <- !app_assoc|]. rewrite Hobj. exact Hso.
  - destruct n as [|n]; cbn [readfrom_loop] in H; cbv zeta in H.
    { injection H as <- <-. split; [intros _; right; lia|done]. }
    cbn in H. destruct (ac_end _ _ _ Hac Hc (v_v (h_w h1)) (Z.of_nat nr) q) as (v2 & m & Hu2 & Hm2 & Hg2). rewrite Hu2 in H.
    pose proof (ca_readfrom _ _ Hcalm (v_v (h_w h1)) u (Some (ORet (RRead (Z.of_nat nr) q (Some EOF))))) as Hv2. rewrite Hu2 in Hv2. cbn in Hv2.
    injection H as <- <-. split; [done|]. intros _. exists m. split; [done|]. split; [done|]. split; [by apply (fl_world _ _ _ _ _ _ Hfl)|].
    split; [|exact Hso]. unfold world. cbn. rewrite Hg2, Hsg, Hgv, Nat2Z.id, app_nil_r. by rewrite <- app_assoc.
Qed.

Lemma discard_loop_run n : forall T R buf t s s' o,
  Inv T (s_h s) -> T !! i = Some R -> buf <> [] -> zlen buf <= max_slice ->
  discard_loop U fuel n (Some i) buf t s = (s', o) -> feasible (s_h s') ->
  (o = OSpin -> busy \/ (n < length R + 1)%nat) /\
  (o <> OSpin -> o = ORet (wrap64 (t + zlen R), None) /\ Inv (<[i := []]> T) (s_h s') /\ same (world s) (world s')).
Proof.
  induction n as [|n IH]; intros T R buf t s s' o HI HT Hb Hm H Hf; cbn [discard_loop] in H; cbv zeta in H.
  { injection H as <- <-. split; [intros _; right; lia|done]. }
  unfold ybind at 1 in H. rewrite call_i in H. destruct (exec E fuel (s_h s) (Call i (Read buf))) as [h1 o1] eqn:Hex.
  assert (Hf1 : feasible h1).
  { destruct o1 as [r|e|]; [|by injection H as <- _..]. destruct r; try (by injection H as <- _).
    destruct err as [e|]; [by destruct e; injection H as <- _|].
    pose proof (f_discard_loop U fuel n (Some i) p (wrap64 (t + n0)) (put_h s h1)) as Hp. rewrite H in Hp. exact (Hp Hf). }
  assert (Hsm : same (h_w (s_h s)) (h_w h1)) by (by apply (same_exec _ _ _ _ _ (fun w (Hz : Read buf = WriteTo w) => ltac:(discriminate Hz)) Hex)).
  destruct (fl_read _ _ _ _ _ _ Hfl _ _ _ _ _ _ _ HI HT Hm Hex Hf1) as [[-> Hbu]|(nr & q & err & R' & -> & Hn & -> & HI' & Herr)].
  { injection H as <- <-. split; [by left|done]. }
  pose proof (read_len _ _ _ _ _ _ _ _ _ Hex) as Hl. assert (HTi : <[i := R']> T !! i = Some R') by apply lookup_insert.
  assert (Hz : zlen (take nr q ++ R') = Z.of_nat nr + zlen R') by (unfold zlen; rewrite app_length, take_length; lia).
  destruct Herr as [[-> ->]|[-> ->]].
  - destruct (IH _ R' q (wrap64 (t + Z.of_nat (length buf))) (put_h s h1) s' o HI' HTi) as [H1 H2]; [by intros ->; destruct buf|unfold zlen in *; lia|done|done|]. split.
    + intros Ho. destruct (H1 Ho) as [?|Hlt]; [by left|right]. rewrite app_length, take_length, Hl. destruct buf; [done|cbn [length]; lia].
    + intros Ho. destruct (H2 Ho) as (-> & HA & HS). rewrite insert_insert in HA. rewrite wrap64_add, Hz, Z.add_assoc. split; [done|]. split; [done|]. by etrans.
  - injection H as <- <-. split; [done|]. intros _. split; [|done]. rewrite Hz. unfold zlen at 1. cbn [length]. by rewrite Z.add_0_r.
Qed.

Lemma kind_i T R s : Inv T (s_h s) -> T !! i = Some R -> exists b, lookup_b (Some i) s = (s, ORet b) /\ is_WriterTo b = wt.
Proof. intros HI HT. destruct (fl_kind _ _ _ _ _ _ Hfl _ _ _ _ HI HT) as (b & Hb & Hw & _). exists b. unfold lookup_b. by rewrite Hb. Qed.

Lemma raw_ReadFrom_run by_ T R acc s s' o : wc_readerfrom (u_caps U u) = true ->
  Inv T (s_h s) -> T !! i = Some R -> got (v_v (world s)) = acc ->
  raw_ReadFrom U fuel by_ u (Some i) s = (s', o) -> feasible (s_h s') ->
  (o = OSpin -> busy \/ (fuel < length R + 2)%nat) /\
  (o <> OSpin -> exists z, o = ORet (z, None) /\ 0 <= z /\ Inv (<[i := []]> T) (s_h s') /\
     got (v_v (world s')) = acc ++ R /\ v_objs (world s') = v_objs (world s)).
Proof.
  intros Hc HI HT Hg. unfold raw_ReadFrom. unfold ybind at 1. cbn [of_opt yret]. unfold ybind at 1, log_u at 1. cbv zeta.
  set (s1 := put_h s _). assert (HI1 : Inv T (s_h s1)) by (apply (fl_world _ _ _ _ _ _ Hfl); [done|apply Hrefl]).
  unfold ybind at 1. destruct (readfrom_loop U fuel fuel u (Some i) None s1) as [s2 o2] eqn:Hr. intros H Hf.
  assert (Hf2 : feasible (s_h s2)).
  { destruct o2 as [[[z er]|e]|e|]; cbn in H; injection H as <- _; exact Hf. }
  destruct (readfrom_loop_run fuel T R acc [] None s1 s2 o2 Hc HI1 HT Hg (or_introl (conj eq_refl eq_refl)) Hr Hf2) as [H1 H2].
  destruct o2 as [x|e|].
  - destruct (H2 ltac:(done)) as (z & [= ->] & Hz & HA & HS & Hobj). cbn in H. injection H as <- <-. split; [done|]. intros _. exists z. split; [done|]. split; [done|].
    split; [apply (fl_world _ _ _ _ _ _ Hfl); [done|apply Hrefl]|]. done.
  - by destruct (H2 ltac:(done)) as (z & ? & _).
  - injection H as <- <-. split; [intros _; by apply H1|done].
Qed.

Lemma copy_discard_run T R s s' o :
  wt = false -> Inv T (s_h s) -> T !! i = Some R -> copy_discard U fuel (Some i) s = (s', o) -> feasible (s_h s') ->
  (o = OSpin -> busy \/ (fuel < length R + 1)%nat) /\
  (o <> OSpin -> o = ORet (wrap64 (zlen R), None) /\ Inv (<[i := []]> T) (s_h s') /\ same (world s) (world s')).
Proof.
  intros Hwt HI HT. unfold copy_discard. unfold ybind at 1. destruct (kind_i T R s HI HT) as (b & -> & ->). rewrite Hwt. intros H Hf.
  destruct discard_buffer_ok as [Hb1 Hb2]. by apply (discard_loop_run fuel T R discard_buffer 0).
Qed.

Lemma wput_run x (s : state V) : on_writer (wput k x) s = (put_h s (heap_w (s_h s) (set_objs (world s) (<[k := WWrap x]> (v_objs (world s))))), ORet tt).
Proof. done. Qed.

(** ** io.Copy *)
Lemma io_Copy_run T R q acc s s' o :
  Inv T (s_h s) -> T !! i = Some R -> sink q acc (world s) ->
  io_Copy U fuel k (Some i) s = (s', o) -> feasible (s_h s') ->
  (o = OSpin -> busy \/ (fuel < length R + 2)%nat) /\
  (o <> OSpin -> exists z, o = ORet (z, None) /\ after T q acc R s').
Proof.
  intros HI HT Hs. unfold io_Copy. unfold ybind at 1. destruct (kind_i T R s HI HT) as (b & -> & ->). assert (Hwt : wt = true \/ wt = false) by (destruct wt; auto). destruct Hwt as [Hwt|Hwt]; rewrite Hwt.
  - unfold write_to. unfold ybind at 1. rewrite call_i. destruct (sink_write q acc (world s) R Hs) as (w' & Hw & Hs' & Hv).
    destruct (fl_writeto _ _ _ _ _ _ Hfl T (s_h s) i R k w' Hwt HI HT Hw Hv) as (h' & -> & HI' & Hcase). cbn. intros [= <- <-] Hf. split; [done|]. intros _.
    eexists. split; [done|]. split; [done|]. unfold world. cbn. destruct Hcase as [->|[-> ->]]; [done|]. rewrite app_nil_r. by destruct q.
  - unfold ybind at 1, lookup_w at 1. destruct (v_objs (world s) !! k) as [obj|] eqn:Hk; [|by destruct Hs as [Ho _]; rewrite Hk in Ho].
    unfold world in Hk. rewrite Hk. fold (world s) in Hk. destruct (any_ReaderFrom U obj) eqn:Hrf.
    + unfold any_ReadFrom. unfold ybind at 1, lookup_w at 1. fold (world s). rewrite Hk. destruct Hs as [Ho Hg]. rewrite Hk in Ho.
      destruct obj as [|u'|x]; [done|..].
      * destruct Ho as [-> ->]. intros H Hf. destruct (raw_ReadFrom_run None T R acc s s' o Hrf HI HT Hg H Hf) as [H1 H2]. split; [done|].
        intros Hn. destruct (H2 Hn) as (z & -> & _ & HI' & Hg' & Hobj). exists z. split; [done|]. split; [done|]. constructor; [|done]. by rewrite Hobj, Hk.
      * destruct Ho as (Hn & Hst & Hq & Hcaps). unfold wrap_ReadFrom. unfold ybind at 1, on_writer at 1. fold (world s). rewrite (maybe_noop (world s) x) by done.
        assert (Hss : put_h s (heap_w (s_h s) (world s)) = s) by (by destruct s as [[]]). rewrite Hss.
        unfold ybind at 1, lookup_wrap at 1, ybind at 1, lookup_w at 1. fold (world s). rewrite Hk. cbn [yret].
        change (ww_status x =? StatusNoContent) with (ww_status x =? 204). rewrite <- Hq. destruct q.
        -- intros H Hf. destruct (copy_discard_run T R s s' o Hwt HI HT H Hf) as [H1 H2]. split.
           { intros Hn'. destruct (H1 Hn'); [by left|right; lia]. }
           intros Hn'. destruct (H2 Hn') as (-> & HI' & Hsm). eexists. split; [done|]. split; [done|]. apply (sink_same _ _ (world s)); [|done].
           constructor; [|done]. rewrite Hk. done.
        -- assert (Hc : wc_readerfrom (u_caps U u) = true).
           { cbn in Hrf. unfold good_caps in Hcaps. destruct (ww_kind x); try done. rewrite Hn in Hcaps. unfold is_fancy in Hcaps.
             destruct (wc_readerfrom _); [done|]. by rewrite ?andb_false_r in Hcaps. }
           rewrite Hn, Hc. cbn [negb]. unfold ybind at 1. destruct (raw_ReadFrom U fuel (Some k) u (Some i) s) as [s1 o1] eqn:Hr. intros H Hf.
           assert (Hf1 : feasible (s_h s1)).
           { destruct o1 as [[z er]|e|]; [|by injection H as <- _..].
             match type of H with ?m s1 = _ => assert (Hp : pres fR m) end.
             { pose proof (@f_on_writer V). pose proof (@f_lookup_wrap V). pres_go. }
             specialize (Hp s1). rewrite H in Hp. exact (Hp Hf). }
           destruct (raw_ReadFrom_run (Some k) T R acc s s1 o1 Hc HI HT Hg Hr Hf1) as [H1 H2].
           destruct o1 as [x1|e|]; [..|injection H as <- <-; split; [exact H1|done]]; [|by destruct (H2 ltac:(done)) as (z & ? & _)].
           destruct (H2 ltac:(done)) as (z & [= ->] & Hz & HI' & Hg' & Hobj).
           unfold ybind at 1, massert at 1 in H. replace (z >=? 0) with true in H by lia. cbn [yret] in H.
           unfold ybind at 1, lookup_wrap at 1, ybind at 1, lookup_w at 1 in H. fold (world s1) in H. rewrite Hobj, Hk in H. cbn [yret] in H.
           unfold ybind at 1 in H. rewrite wput_run in H. injection H as <- <-. split; [done|]. intros _. eexists. split; [done|]. split.
           { apply (fl_world _ _ _ _ _ _ Hfl); [done|apply Hrefl]. }
           constructor; [|exact Hg']. cbn. rewrite Hobj, list_lookup_insert by (by eapply lookup_lt_Some). cbn. done.
    + intros H Hf. destruct (copy_loop_run fuel T R q acc copy_buffer 0 s s' o HI HT Hs (proj1 copy_buffer_ok) (proj2 copy_buffer_ok) H Hf) as [H1 H2]. split; [|done].
      intros Hn. destruct (H1 Hn); [by left|right; lia].
Qed.

(** ** Serve *)
Definition went (s s' : state V) : Prop := only_world s s' /\ got (v_v (world s')) = got (v_v (world s)) /\ vR (v_v (world s)) (v_v (world s')).
Lemma push_one_ok s by_ url : target s k = Some (by_, u) -> (by_ = None -> wc_pusher (u_caps U u) = true) ->
  exists s' e, went s s' /\ any_Push U k url s = (s', ORet e) /\ match e with None => True | Some err => errors_Is err ErrNotSupported = true end.
Proof.
  unfold target. intros Ht Hp. unfold any_Push, ybind at 1, lookup_w at 1. fold (world s).
  pose proof (ca_push _ _ Hcalm (v_v (world s)) u url) as Hv. destruct (ac_push _ _ _ Hac (v_v (world s)) url) as (v' & e & Hu & Hg & He).
  rewrite Hu in Hv. cbn in Hv. destruct (v_objs (world s) !! k) as [[|u'|y]|] eqn:Hk; try done.
  - injection Ht as <- ->. unfold on_writer, raw_Push. fold (world s). rewrite Hu.
    eexists _, e. split; [|split; [reflexivity|done]]. split; [by eexists|]. done.
  - injection Ht as <- Hn. unfold on_writer. fold (world s). unfold wrap_Push, wbind, wget. rewrite Hk. cbn. rewrite Hn. destruct (wc_pusher _) eqn:Hc.
    + unfold raw_Push. rewrite Hu. eexists _, e. split; [|split; [reflexivity|done]]. split; [by eexists|]. done.
    + eexists s, (Some ErrNotSupported). split; [split; [done|]; split; [done|apply Hrefl]|]. split; [|done]. unfold wret. f_equal. destruct s as [[] ? ? ? ? ?]. done.
Qed.
Lemma push_ok urls : forall s by_, target s k = Some (by_, u) -> (by_ = None -> wc_pusher (u_caps U u) = true) ->
  exists s', went s s' /\ push_all U k urls s = (s', ORet None).
Proof.
  induction urls as [|url urls IH]; intros s by_ Ht Hp; cbn [push_all].
  { exists s. split; [|done]. split; [done|]. split; [done|apply Hrefl]. }
  destruct (push_one_ok s by_ url Ht Hp) as (s1 & e & (Ho & Hg & Hv) & Hx & He). unfold ybind. rewrite Hx.
  destruct (IH s1 by_) as (s' & (Ho' & Hg' & Hv') & Hr); [by rewrite (ow_target s)|done|]. exists s'. split.
  - split; [by etrans|]. split; [congruence|]. by eapply Htrans.
  - destruct e as [err|]; [rewrite He|]; done.
Qed.
Lemma serve_start s x by_ : target s k = Some (by_, u) -> is_Some (hview s (rp_hdrs x)) ->
  exists s1, went s s1 /\ rp_Serve U fuel x k s = serve_rest U fuel x k s1.
Proof.
  intros Ht [X HX]. assert (Hk : exists o, v_objs (world s) !! k = Some o /\ any_Pusher U o = (match by_ with None => wc_pusher (u_caps U u) | _ => true end)).
  { unfold target in Ht. destruct (v_objs (world s) !! k) as [[|u'|y]|]; try done; injection Ht as <- <-; eexists; split; done. }
  destruct Hk as (o & Hk & Ho).
  destruct (decide (by_ = None -> wc_pusher (u_caps U u) = true)) as [Hp|Hp].
  - assert (Ho' : any_Pusher U o = true) by (rewrite Ho; destruct by_; [done|by apply Hp]).
    unfold rp_Serve. unfold ybind at 1. unfold lookup_w at 1. fold (world s). rewrite Hk, Ho'.
    assert (Hm : exists hdrs, map_or_nil (rp_hdrs x) s = (s, ORet hdrs)).
    { unfold map_or_nil, hview in *. destruct (rp_hdrs x) as [m|]; [|by exists ∅].
      unfold view in HX. unfold the_map. destruct (s_maps s !! m) as [hdrs|]; [|done]. by exists hdrs. }
    destruct Hm as (hdrs & Hm).
    destruct (push_ok (contents_of (s_arrs s) (default nil_slice (hdrs !! headerPush))) s by_ Ht Hp) as (s1 & H1 & H2).
    exists s1. split; [done|]. unfold ybind at 1. unfold ybind at 1. rewrite Hm. unfold ybind at 1. unfold contents at 1. rewrite H2. done.
  - destruct (wc_pusher (u_caps U u)) eqn:Hc; [by destruct Hp|]. destruct by_; [by destruct Hp|]. exists s. split; [split; [done|]; split; [done|apply Hrefl]|].
    unfold rp_Serve. unfold ybind at 1. unfold lookup_w at 1. fold (world s). rewrite Hk, Ho. done.
Qed.

Lemma header_ok s by_ code : target s k = Some (by_, u) -> ready s k code ->
  (forall y, v_objs (world s) !! k = Some (WWrap y) -> good_caps U y) ->
  exists w, any_WriteHeader U k code s = (put_h s (heap_w (s_h s) w), ORet tt) /\
    sink (bodiless s k code) (got (v_v (world s))) w /\ vR (v_v (world s)) (v_v w).
Proof.
  unfold target, ready, bodiless. intros Ht Hr Hcaps. unfold any_WriteHeader. unfold ybind at 1. unfold lookup_w at 1. fold (world s).
  pose proof (ca_writeheader _ _ Hcalm (v_v (world s)) u code) as Hv. destruct (ac_header _ _ _ Hac (v_v (world s)) code) as (v' & Hu & Hg).
  rewrite Hu in Hv. cbn in Hv. destruct (v_objs (world s) !! k) as [[|u'|y]|] eqn:Hk; try done.
  - injection Ht as <- ->. unfold on_writer, raw_WriteHeader. fold (world s). rewrite Hu. eexists. split; [reflexivity|]. split; [|done].
    constructor; [cbn; by rewrite Hk|done].
  - injection Ht as <- Hn. destruct Hr as [Hs0 Hr]. specialize (Hcaps y eq_refl). unfold on_writer. fold (world s). unfold wrap_WriteHeader, wbind, wnote, wassert.
    replace (code >=? 100) with true by lia. replace (code <=? 999) with true by lia. cbn. unfold wget. cbn. rewrite Hk. cbn. rewrite Hs0. cbn. unfold writeHeaderImpl, wbind, wget. cbn. rewrite Hk. cbn. unfold raw_WriteHeader. cbn. rewrite Hn, Hu. eexists. split; [reflexivity|]. cbn. split; [|done]. constructor; [|done]. cbn.
    rewrite list_lookup_insert by (by eapply lookup_lt_Some). cbn. split; [done|]. split; [lia|]. done.
Qed.

Lemma serve_run T R x by_ hm s s' o :
  Inv T (s_h s) -> T !! i = Some R -> rp_body x = Some i -> target s k = Some (by_, u) -> ready s k (rp_code x) ->
  (forall y, v_objs (world s) !! k = Some (WWrap y) -> good_caps U y) ->
  (forall v, u_map U v u = hm) -> is_Some (hview s (rp_hdrs x)) -> is_Some (view s hm) ->
  rp_Serve U fuel x k s = (s', o) -> feasible (s_h s') ->
  (o = OSpin -> busy \/ (fuel < length R + 2)%nat) /\
  (o <> OSpin -> exists e, o = ORet e /\ ((forall v r, (ev_close (u_env U) v r).2 = None) -> e = None) /\
     Inv (delete i T) (s_h s') /\
     got (v_v (world s')) = got (v_v (world s)) ++ (if bodiless s k (rp_code x) then [] else R)).
Proof.
  intros HI HT Hb Ht Hr Hcaps Hmap HX HY H Hf.
  destruct (serve_start s x by_ Ht HX) as (s1 & (Ho & Hg1 & Hv1) & Hs1). rewrite Hs1 in H. clear Hs1.
  assert (Hobj : v_objs (world s1) = v_objs (world s)) by (destruct Ho as (w & -> & Hw); exact Hw).
  assert (HI1 : Inv T (s_h s1)).
  { destruct Ho as (w & -> & Hw). by apply (fl_world _ _ _ _ _ _ Hfl). }
  assert (HX1 : hview s1 (rp_hdrs x) = hview s (rp_hdrs x)) by (destruct Ho as (w & -> & Hw); done).
  assert (HY1 : view s1 hm = view s hm) by (destruct Ho as (w & -> & Hw); done).
  assert (Ht1 : target s1 k = Some (by_, u)) by (by rewrite (ow_target s)).
  unfold serve_rest in H. unfold ybind at 1 in H. assert (Hh : any_Header U k s1 = (s1, ORet hm)).
  { unfold any_Header, target in *. fold (world s1). destruct (v_objs (world s1) !! k) as [[]|]; try done; injection Ht1 as <- <-; by rewrite Hmap. }
  rewrite Hh in H. unfold ybind at 1 in H.
  assert (Hm : exists hdrs, map_or_nil (rp_hdrs x) s1 = (s1, ORet hdrs)).
  { rewrite <- HX1 in HX. destruct HX as [X HX]. unfold map_or_nil, hview in *. destruct (rp_hdrs x) as [m|]; [|by exists ∅].
    unfold view in HX. unfold the_map. destruct (s_maps s1 !! m) as [hdrs|]; [|done]. by exists hdrs. }
  destruct Hm as (hdrs & Hm). rewrite Hm in H. destruct HY as [Y HY]. rewrite HY in HY1.
  destruct (copy_to_view s1 hm hdrs Y HY1) as (maps' & Hc & _). unfold ybind at 1 in H. rewrite Hc in H.
  set (s2 := put_maps s1 maps') in *. unfold ybind at 1 in H.
  destruct (header_ok s2 by_ (rp_code x)) as (w & Hw & Hsk & Hv2); [exact Ht1| |by intros y; change (world s2) with (world s1); rewrite Hobj; apply Hcaps|].
  { unfold ready in *. change (world s2) with (world s1). by rewrite Hobj. }
  rewrite Hw in H. set (s3 := put_h s2 _) in *. rewrite Hb in H.
  assert (HI3 : Inv T (s_h s3)) by (apply (fl_world _ _ _ _ _ _ Hfl); [exact HI1|exact Hv2]).
  assert (Hq : bodiless s2 k (rp_code x) = bodiless s k (rp_code x)) by (unfold bodiless; change (world s2) with (world s1); by rewrite Hobj).
  change (got (v_v (world s2))) with (got (v_v (world s1))) in Hsk. rewrite Hq, Hg1 in Hsk.
  unfold ybind at 1 in H. destruct (io_Copy U fuel k (Some i) s3) as [s4 o4] eqn:Hio.
  assert (Hf4 : feasible (s_h s4)).
  { destruct o4 as [[z er]|e|]; [|by injection H as <- _..]. match type of H with ?m s4 = _ => assert (Hp : pres fR m) end.
    { pose proof (f_call U fuel). pres_go. } specialize (Hp s4). rewrite H in Hp. exact (Hp Hf). }
  destruct (io_Copy_run T R _ _ s3 s4 o4 HI3 HT Hsk Hio Hf4) as [H1 H2].
  destruct o4 as [x4|e|]; [..|injection H as <- <-; split; [intros _; by apply H1|done]]; [|by destruct (H2 ltac:(done)) as (z & ? & _)].
  destruct (H2 ltac:(done)) as (z & [= ->] & HI4 & Hsk4). unfold ybind at 1 in H. rewrite call_i in H.
  assert (HTi : <[i := []]> T !! i = Some ([] : bytes)) by apply lookup_insert.
  destruct (fl_kind _ _ _ _ _ _ Hfl _ _ _ _ HI4 HTi) as (b & Hkb & _ & Hsh).
  destruct (exec E fuel (s_h s4) (Call i Close)) as [h5 o5] eqn:Hex.
  assert (Hf5 : feasible h5) by (destruct o5 as [[]|?|]; injection H as <- _; exact Hf).
  destruct (fl_close _ _ _ _ _ _ Hfl _ _ _ _ _ _ HI4 HTi Hex Hf5) as (err & -> & HI5). injection H as <- <-. split; [done|]. intros _.
  exists err. split; [done|]. split.
  { intros Hcl. apply (close_nil E fuel (s_h s4) i b h5 err); try done. intros w0 r. cbn. specialize (Hcl (v_v w0) r). by destruct (ev_close _ _ _). }
  rewrite delete_insert_delete in HI5. split; [done|].
  assert (Hsm : same (h_w (s_h s4)) (h_w h5)) by (by apply (same_exec _ _ _ _ _ (fun w (Hz : Close = WriteTo w) => ltac:(discriminate Hz)) Hex)).
  destruct Hsm as [Hsg _]. unfold world at 1. cbn. rewrite Hsg. destruct Hsk4 as [_ Hg4]. unfold world in Hg4. rewrite Hg4. destruct (bodiless s k (rp_code x)); [by rewrite app_nil_r|done].
Qed.
End D.

Section Whole.
Context {V : Type} (U : uenv V) (fuel : nat) (vR : V -> V -> Prop) (busy : Prop) (wt : bool) (Inv : gmap nat bytes -> heap (wst V) -> Prop).
Hypothesis Hfl : flow U fuel vR busy wt Inv.
Hypothesis Hcalm : calm U vR.
Hypothesis Hrefl : Reflexive vR.
Hypothesis Htrans : Transitive vR.
Implicit Types s : state V.

Lemma texec_body c s s' o : texec U fuel (TDo (RB c)) s = (s', ORet (YBody o)) -> exists h', exec (wenv U) fuel (s_h s) c = (h', ORet o) /\ s' = put_h s h'.
Proof.
  cbn. unfold ybind, body_cmd. destruct (uexec _ _ _ _) as [h' [r|e|]] eqn:Hex; cbn; intros [= <- ?]; subst. apply uexec_ret in Hex. eauto.
Qed.
Lemma reads_all s i R' : reads U fuel s i R' -> forall T R, Inv T (s_h s) -> T !! i = Some R -> R' = R.
Proof.
  induction 1 as [s i p s' n q Hp Hf Hex|s i p s' n q R' Hp Hf Hex _ IH]; intros T R HI HT; apply texec_body in Hex as (h' & Hex & ->);
    destruct (fl_read _ _ _ _ _ _ Hfl _ _ _ _ _ _ _ HI HT Hp Hex Hf) as [[? _]|(m & q' & err & R2 & [= -> -> <-] & Hm & -> & HI' & [[? _]|[? ?]])]; try done.
  - subst R2. by rewrite app_nil_r, Nat2Z.id.
  - rewrite Nat2Z.id. f_equal. apply (IH _ R2 HI'). apply lookup_insert.
Qed.
Lemma deliver s T i R : Inv T (s_h s) -> T !! i = Some R ->
  (forall k y, v_objs (world s) !! k = Some (WWrap y) -> good_caps U y) -> delivers U fuel busy s i R.
Proof.
  intros HI HT Hcaps. split; [intros R' HR; by eapply reads_all|].
  intros r x k by_ u h got s' o Hx Hb Ht Hr Hac Hmap HX HY Hex Hf. rewrite (texec_serve U fuel s r x k Hx) in Hex.
  unfold ybind in Hex. destruct (rp_Serve U fuel x k s) as [s1 o1] eqn:Hs.
  assert (Hss : s1 = s') by (destruct o1; injection Hex as <- _; done). subst s1.
  destruct (serve_run U fuel vR busy wt Inv Hfl Hcalm Hrefl Htrans u got Hac k i T R x by_ h s s' o1 HI HT Hb Ht Hr (Hcaps k) Hmap HX HY Hs Hf) as [H1 H2].
  destruct o1 as [e|e|].
  - injection Hex as <-. destruct (H2 ltac:(done)) as (e' & [= <-] & Hn & _ & Hg). split; [done|]. intros _. by exists e.
  - by destruct (H2 ltac:(done)) as (e' & ? & _).
  - injection Hex as <-. split; [intros _; by apply H1|done].
Qed.
End Whole.
