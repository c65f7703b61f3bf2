(** * Copying a Response, and draining a Body (proofs) *)
From stdpp Require Import gmap.
From Coq Require Import ZifyBool.
From Verif Require Import RespFacts DeliverSpec Post Quiet Preserve ServeProofs WriterProofs WriterMain ServeMain HeapRun Deliver.

(** The writers are in order, and number 0 is io.Discard. *)
Definition wgood {V} (U : uenv V) (w : wst V) : Prop := winv U w /\ v_objs w !! 0%nat = Some WDiscard.
Lemma wgood_step {V} (U : uenv V) w w' : wstep U w w' -> wgood U w -> wgood U w'.
Proof. intros H [H1 H2]. destruct (H H1) as [H3 (_ & _ & Hr & _)]. split; [done|]. by apply (Hr 0%nat). Qed.
Lemma wgood_caps {V} (U : uenv V) (s : state V) : wgood U (world s) -> forall k y, v_objs (world s) !! k = Some (WWrap y) -> good_caps U y.
Proof. intros [[Hok _] _] k y Hk. exact (ok_caps _ _ _ _ (Hok k y Hk)). Qed.
Lemma wgood_initial {V} (U : uenv V) v n maps arrs : wgood U (world (tinitial v n maps arrs)).
Proof. split; [apply winv_initial|done]. Qed.

Section T.
Context {V : Type} (U : uenv V) (fuel : nat) (vR : V -> V -> Prop) (busy : Prop) (wt : bool) (Inv : gmap nat bytes -> heap (wst V) -> Prop).
Hypothesis Hfl : flow U fuel vR busy wt Inv.
Hypothesis Hcalm : calm U vR.
Hypothesis Hrefl : Reflexive vR.
Hypothesis Htrans : Transitive vR.
Implicit Types s : state V.
Notation E := (wenv U).

Lemma discard_drain i n : forall T R buf t s s' o,
  Inv T (s_h s) -> T !! i = Some R -> buf <> [] -> zlen buf <= max_slice ->
  discard_loop U fuel n (Some i) buf t s = (s', o) -> feasible (s_h s') ->
  (o = OSpin -> busy \/ (n < length R + 1)%nat) /\
  (o <> OSpin -> o = ORet (wrap64 (t + zlen R), None) /\ Inv (<[i := []]> T) (s_h s')).
Proof.
  induction n as [|n IH]; intros T R buf t s s' o HI HT Hb Hm H Hf; cbn [discard_loop] in H; cbv zeta in H.
  { injection H as <- <-. split; [intros _; right; lia|done]. }
  unfold ybind at 1 in H. rewrite (call_i U fuel vR busy wt Inv Hfl i) in H. destruct (exec E fuel (s_h s) (Call i (Read buf))) as [h1 o1] eqn:Hex.
  assert (Hf1 : feasible h1).
  { destruct o1 as [r|e|]; [|by injection H as <- _..]. destruct r; try (by injection H as <- _).
    destruct err as [e|]; [by destruct e; injection H as <- _|].
    pose proof (f_discard_loop U fuel n (Some i) p (wrap64 (t + n0)) (put_h s h1)) as Hp. rewrite H in Hp. exact (Hp Hf). }
  destruct (fl_read _ _ _ _ _ _ Hfl _ _ _ _ _ _ _ HI HT Hm Hex Hf1) as [[-> Hbu]|(nr & q & err & R' & -> & Hn & -> & HI' & Herr)].
  { injection H as <- <-. split; [by left|done]. }
  pose proof (read_len _ _ _ _ _ _ _ _ _ Hex) as Hl. assert (HTi : <[i := R']> T !! i = Some R') by apply lookup_insert.
  assert (Hz : zlen (take nr q ++ R') = Z.of_nat nr + zlen R') by (unfold zlen; rewrite app_length, take_length; lia).
  destruct Herr as [[-> ->]|[-> ->]].
  - destruct (IH _ R' q (wrap64 (t + Z.of_nat (length buf))) (put_h s h1) s' o HI' HTi) as [H1 H2]; [by intros ->; destruct buf|unfold zlen in *; lia|done|done|]. split.
    + intros Ho. destruct (H1 Ho) as [?|Hlt]; [by left|right]. rewrite app_length, take_length, Hl. destruct buf; [done|cbn [length]; lia].
    + intros Ho. destruct (H2 Ho) as (-> & HA). rewrite insert_insert in HA. rewrite wrap64_add, Hz, Z.add_assoc. split; [done|]. done.
  - injection H as <- <-. split; [done|]. intros _. split; [|done]. rewrite Hz. unfold zlen at 1. cbn [length]. by rewrite Z.add_0_r.
Qed.
Lemma drain s T i R : Inv T (s_h s) -> T !! i = Some R -> zlen R <= max_i64 \/ wt = false -> wgood U (world s) -> drains U fuel busy s i R.
Proof.
  intros HI HT Hsmall Hw k x s' o Hk Hd Hkind H Hf.
  assert (Hend : forall s', Inv (<[i := []]> T) (s_h s') -> forall R', reads U fuel s' i R' -> R' = []).
  { intros s0 HI0 R' HR'. apply (reads_all U fuel vR busy wt Inv Hfl s0 i R' HR' (<[i := []]> T)); [done|apply lookup_insert]. }
  assert (Hcd : forall s1 s2 o2, Inv T (s_h s1) -> v_objs (world s1) !! 0%nat = Some WDiscard -> copy_discard U fuel (Some i) s1 = (s2, o2) -> feasible (s_h s2) ->
    match o2 with OSpin => busy \/ (fuel < length R + 1)%nat | OPanic _ => False | ORet y => y = (wrap64 (zlen R), None) /\ Inv (<[i := []]> T) (s_h s2) end).
  { intros s1 s2 o2 HI1 H0 Hc Hf2. unfold copy_discard in Hc. unfold ybind at 1 in Hc. destruct (kind_i U fuel vR busy wt Inv Hfl i T R s1 HI1 HT) as (b & Hb & Hwt).
    rewrite Hb, Hwt in Hc. assert (Hcase : wt = true \/ wt = false) by (clear; generalize wt; by intros [|]; [left|right]).
    destruct Hcase as [Hwt1|Hwt1]; rewrite Hwt1 in Hc.
    - destruct Hsmall as [Hsmall|]; [|congruence].
      unfold write_to in Hc. unfold ybind at 1 in Hc. rewrite (call_i U fuel vR busy wt Inv Hfl i) in Hc.
      destruct (fl_writeto _ _ _ _ _ _ Hfl T (s_h s1) i R 0%nat (h_w (s_h s1)) Hwt1 HI1 HT) as (h' & Hex & HI' & _).
      { unfold any_Write. unfold world in H0. unfold wid in *. by rewrite H0. }
      { apply Hrefl. }
      rewrite Hex in Hc. injection Hc as <- <-. split; [|done]. f_equal. symmetry. apply wrap64_id. pose proof (zlen_nonneg R). unfold min_i64. lia.
    - destruct (discard_drain i fuel T R discard_buffer 0 s1 s2 o2 HI1 HT ltac:(done) ltac:(by vm_compute) Hc Hf2) as [H1 H2].
      destruct o2 as [y|e|]; [|by destruct (H2 ltac:(done))|by apply H1]. destruct (H2 ltac:(done)) as [[= ->] HA]. done. }
  assert (Hrf : any_ReadFrom U fuel k (Some i) s = wrap_ReadFrom U fuel k (Some i) s).
  { unfold any_ReadFrom, ybind at 1, lookup_w. fold (world s). by rewrite Hk. }
  assert (Hx : exists o2, wrap_ReadFrom U fuel k (Some i) s = (s', o2) /\ o = match o2 with ORet (n, err) => ORet (YCount n err) | OPanic e => OPanic e | OSpin => OSpin end).
  { cbn in H. unfold w_do, ybind at 1, lookup_w in H. fold (world s) in H. rewrite Hk in H. cbn [any_ReaderFrom] in H. rewrite Hkind in H. unfold ybind in H. rewrite Hrf in H.
    destruct (wrap_ReadFrom U fuel k (Some i) s) as [s2 [[n err]|e|]]; injection H as <- <-; eexists; split; reflexivity. }
  assert (Hfin : forall s1 x1 o2 K, ybind (lookup_wrap k) (fun x => if ww_isHEAD x || (ww_status x =? StatusNoContent) then copy_discard U fuel (Some i) else K x) s1 = (s', o2) ->
    Inv T (s_h s1) -> v_objs (world s1) !! 0%nat = Some WDiscard -> v_objs (world s1) !! k = Some (WWrap x1) -> ww_isHEAD x1 || (ww_status x1 =? StatusNoContent) = true ->
    forall P : panic -> Prop, match (match o2 with ORet (n, err) => ORet (YCount n err) | OPanic e => OPanic e | OSpin => OSpin end : out reply) with
    | OSpin => busy \/ (fuel < length R + 1)%nat
    | OPanic e => P e
    | ORet y => y = YCount (wrap64 (zlen R)) None /\ forall R', reads U fuel s' i R' -> R' = []
    end).
  { intros s1 x1 o2 K Hx1 HI1 H0 Hk1 Hq P. unfold ybind at 1 in Hx1. unfold lookup_wrap, ybind at 1, lookup_w in Hx1. fold (world s1) in Hx1. rewrite Hk1 in Hx1. cbn in Hx1. change (ww_status x1 =? 204) with (ww_status x1 =? StatusNoContent) in Hx1. rewrite Hq in Hx1.
    pose proof (Hcd s1 s' o2 HI1 H0 Hx1 Hf) as Hc. destruct o2 as [[n err]|e|]; [|done|done]. destruct Hc as [[= -> ->] HA]. split; [done|]. by apply Hend. }
  destruct Hx as (o2 & Hx & ->). clear H Hrf. unfold wrap_ReadFrom in Hx. unfold ybind at 1 in Hx. unfold on_writer at 1 in Hx. fold (world s) in Hx.
  rewrite (MaybeWriteHeader_run U) in Hx. cbn [StatusOK] in Hx. change ((100 <=? StatusOK) && (StatusOK <=? 999)) with true in Hx. rewrite Hk in Hx.
  destruct (ww_status x =? 0) eqn:Hs0.
  - cbv zeta in Hx. change StatusOK with 200 in Hx. pose proof (ca_writeheader _ _ Hcalm (v_v (world s)) (ww_next x) 200) as Hv. destruct (u_writeheader U (v_v (world s)) (ww_next x) 200) as [v [e|]] eqn:Hu; cbn [opt_panic] in Hx.
    + injection Hx as <- <-. split; [lia|done].
    + set (w1 := note _ _ _) in Hx. change (put_h s (heap_w (s_h s) w1)) with (put_h s (heap_w (s_h s) w1)) in Hx.
      apply (Hfin (put_h s (heap_w (s_h s) w1)) (with_status x 200) o2 _ Hx).
      * apply (fl_world _ _ _ _ _ _ Hfl); [done|exact Hv].
      * cbn. destruct (decide (k = 0%nat)) as [->|Hne]; [destruct Hw as [_ Hw]; unfold wid in *; congruence|]. rewrite list_lookup_insert_ne by done. apply Hw.
      * cbn. apply list_lookup_insert. by eapply lookup_lt_Some.
      * cbn. destruct Hd as [->|Hd]; [done|lia].
  - assert (Hss : put_h s (heap_w (s_h s) (world s)) = s) by (destruct s as [[] ? ? ? ? ?]; done). rewrite Hss in Hx.
    apply (Hfin s x o2 _ Hx HI (proj2 Hw) Hk).
    change StatusNoContent with 204. destruct Hd as [->|Hd]; [done|]. rewrite Hd. by destruct (ww_isHEAD x).
Qed.

Lemma serve_other s T i R r x s' : Inv T (s_h s) -> T !! i = Some R -> s_rps s !! r = Some x -> rp_body x = Some i -> wgood U (world s) ->
  serves_well U fuel s r x s' -> Inv (delete i T) (s_h s') /\ wgood U (world s').
Proof.
  intros HI HT Hx Hb Hw (k & by_ & u & h & got & o & Ht & Hr & Hac & Hmap & HX & HY & Hex & Hf & Ho).
  split; [|apply (wgood_step U (world s)); [|done]; pose proof (w_texec U fuel (TDo (RServe r k)) s) as H; by rewrite Hex in H].
  rewrite (texec_serve U fuel s r x k Hx) in Hex. unfold ybind in Hex. destruct (rp_Serve U fuel x k s) as [s1 o1] eqn:Hs.
  assert (Hss : s1 = s' /\ o1 <> OSpin) by (destruct o1; injection Hex as <- <-; done). destruct Hss as [-> Ho1].
  destruct (serve_run U fuel vR busy wt Inv Hfl Hcalm Hrefl Htrans u got Hac k i T R x by_ h s s' o1 HI HT Hb Ht Hr (wgood_caps U s Hw k) Hmap HX HY Hs Hf) as [_ H2].
  by destruct (H2 Ho1) as (e & _ & _ & ? & _).
Qed.
Lemma twin s T i R : Inv T (s_h s) -> T !! i = Some R -> wgood U (world s) -> twins U fuel busy s i R.
Proof.
  intros HI HT Hw r x s1 o Hx Hb Hex Hf.
  assert (Hw1 : wgood U (world s1)).
  { apply (wgood_step U (world s)); [|done]. pose proof (w_texec U fuel (TDo (RCopy r)) s) as H. by rewrite Hex in H. }
  cbn in Hex. unfold ybind at 1, the_rp in Hex. rewrite Hx in Hex. unfold ybind at 1, rp_Copy, copyBody in Hex. rewrite Hb in Hex. unfold ybind at 1 in Hex. unfold ybind at 1 in Hex.
  unfold body_cmd in Hex. rewrite uexec_safe in Hex by exact (fl_safe _ _ _ _ _ _ Hfl). destruct (exec E fuel (s_h s) (Call i Copy)) as [h1 o1] eqn:Hc.
  assert (Hf1 : feasible h1) by (destruct o1 as [y| |]; [destruct y as [| | | | |? []| | |]|..]; cbn in Hex; injection Hex as <- _; exact Hf).
  destruct (fl_copy _ _ _ _ _ _ Hfl _ _ _ _ _ _ HI HT Hc Hf1) as (j & -> & Hj & HI1). cbn in Hex. injection Hex as <- <-.
  assert (Hne : j <> i) by congruence. set (s1 := put_rps _ _) in *. exists j. split; [done|]. split; [done|]. split; [done|]. split; [done|].
  assert (HTi : <[j := R]> T !! i = Some R) by (by rewrite lookup_insert_ne).
  assert (HTj : <[j := R]> T !! j = Some R) by apply lookup_insert.
  assert (Hd : forall s T i, Inv T (s_h s) -> T !! i = Some R -> wgood U (world s) -> delivers U fuel busy s i R).
  { intros s0 T0 i0 HI0 HT0 Hw0. apply (deliver U fuel vR busy wt Inv Hfl Hcalm Hrefl Htrans s0 T0 i0 R HI0 HT0). by apply wgood_caps. }
  split; [by apply (Hd s1 (<[j := R]> T))|]. split; [by apply (Hd s1 (<[j := R]> T))|]. split.
  - intros s2 Hs. assert (Hx1 : s_rps s1 !! r = Some x) by (cbn; rewrite lookup_app_l; [done|by eapply lookup_lt_Some]).
    destruct (serve_other s1 (<[j := R]> T) i R r x s2 HI1 HTi Hx1 Hb Hw1 Hs) as [HI2 Hw2]. apply (Hd s2 (delete i (<[j := R]> T))); [done| |done]. by rewrite lookup_delete_ne.
  - intros s2 Hs. match type of Hs with serves_well _ _ _ _ ?x2 _ => set (y := x2) in * end.
    assert (Hy : s_rps s1 !! length (s_rps s) = Some y) by (apply list_lookup_middle; done).
    destruct (serve_other s1 (<[j := R]> T) j R (length (s_rps s)) y s2 HI1 HTj Hy eq_refl Hw1 Hs) as [HI2 Hw2].
    apply (Hd s2 (delete j (<[j := R]> T))); [done| |done]. by rewrite lookup_delete_ne.
Qed.
End T.
