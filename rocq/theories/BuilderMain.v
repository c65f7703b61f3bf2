(** * Builders: proofs of C34, C38, C39 and C49 *)
From stdpp Require Import gmap.
From Coq Require Import ZifyBool.
From Verif Require Import BuilderSpec RespFacts HdrFacts ViewFacts TextFacts JsonProofs RunFacts.

Section Main.
Context {V : Type} (U : uenv V) (fuel : nat).
Implicit Types (s : state V) (x : builder) (X : header).

Definition with_hdrs x m : builder := {| bd_gen := bd_gen x; bd_code := bd_code x; bd_hdrs := Some m; bd_body := bd_body x; bd_err := bd_err x |}.

(** ** Header helpers *)
Lemma done_unit (m : M unit) s s' : m s = (s', ORet tt) -> ybind m (fun _ => yret YUnit) s = (s', ORet YUnit).
Proof. intros H. unfold ybind. by rewrite H. Qed.
Lemma header_helpers_swf : forall s b x X f X',
  swf s -> s_bds s !! b = Some x -> hview s (bd_hdrs x) = Some X ->
  header_helper f -> safe_append s x f -> header_after U f X = Some X' ->
  exists s' m, texec U fuel (TDo (RBuilder b f)) s = (s', ORet YUnit) /\
    changes s s' b x {| bd_gen := bd_gen x; bd_code := bd_code x; bd_hdrs := Some m; bd_body := bd_body x; bd_err := bd_err x |} X' [].
Proof.
  intros s b x X f X' Hs Hb HX Hf Hsafe HX'.
  assert (Hset : forall key value X', <[CanonicalHeaderKey key := [value]]> X = X' ->
    exists s' m, ybind (bd_Headers b) (fun m => hdr_Set m key value) s = (s', ORet tt) /\ changes s s' b x (with_hdrs x m) X' []).
  { intros key value X0 <-. destruct (Headers_Set s b x X key value Hs Hb HX) as (s' & m & H & _ & Hc). eauto. }
  assert (Hadd : forall key value X', appends_to f = Some (CanonicalHeaderKey key) ->
    <[CanonicalHeaderKey key := default [] (X !! CanonicalHeaderKey key) ++ [value]]> X = X' ->
    exists s' m, ybind (bd_Headers b) (fun m => hdr_Add U m key value) s = (s', ORet tt) /\ changes s s' b x (with_hdrs x m) X' []).
  { intros key value X0 Hk <-. destruct (Headers_Add U s b x X key value Hs Hb HX) as (s' & m & H & _ & Hc); [|eauto]. intros m m' Hm. by eapply Hsafe. }
  assert (Hgo : forall m : M unit, (exists s' i, m s = (s', ORet tt) /\ changes s s' b x (with_hdrs x i) X' []) ->
    exists s' i, ybind m (fun _ => yret YUnit) s = (s', ORet YUnit) /\ changes s s' b x (with_hdrs x i) X' []).
  { intros m (s' & i & H & Hc). exists s', i. split; [by apply done_unit|done]. }
  cbn [texec rdo]. apply Hgo. destruct f; try done; cbn [bd_do header_after] in *.
  - unfold bd_WithHeader. destruct name as [|c name]; [done|]. change (String.eqb (String c name) "") with false. cbn [negb massert]. unfold ybind at 1. cbn [yret].
    destruct appendToExisting.
    + apply Hadd; [done|congruence].
    + apply Hset. congruence.
  - unfold bd_WithoutHeader. destruct name as [|c name]; [done|]. change (String.eqb (String c name) "") with false. cbn [negb massert]. unfold ybind at 1. cbn [yret].
    injection HX' as <-. destruct (Headers_Del s b x X (String c name) Hs Hb HX) as (s' & m & H & _ & Hc). eauto.
  - unfold bd_WithContentType. destruct (u_mime U str) as [t|]; [|done]. apply Hset. injection HX' as <-. done.
  - apply Hset. injection HX' as <-. done.
  - apply Hset. injection HX' as <-. done.
  - unfold bd_WithETag. cbv zeta. apply Hset. destruct isStrong; injection HX' as <-; done.
  - unfold bd_WithDigest. destruct algo as [|c algo]; [done|]. destruct sum as [|d sum]; [done|].
    change (String.eqb (String c algo) "") with false. cbn [negb massert]. unfold ybind at 1. cbn [yret].
    replace (zlen (d :: sum) >? 0) with true by (unfold zlen; cbn; lia). cbn [massert]. unfold ybind at 1. cbn [yret].
    apply Hadd; [done|]. injection HX' as <-. done.
Qed.
Theorem header_helpers : forall s b x X f X',
  treaches U fuel s -> s_bds s !! b = Some x -> hview s (bd_hdrs x) = Some X ->
  header_helper f -> safe_append s x f -> header_after U f X = Some X' ->
  exists s' m, texec U fuel (TDo (RBuilder b f)) s = (s', ORet YUnit) /\
    changes s s' b x {| bd_gen := bd_gen x; bd_code := bd_code x; bd_hdrs := Some m; bd_body := bd_body x; bd_err := bd_err x |} X' [].
Proof. intros s b x X f X' Hs%treaches_swf. by apply header_helpers_swf. Qed.
Theorem header_helpers_raise : forall s b X f,
  header_helper f -> header_after U f X = None ->
  exists e, texec U fuel (TDo (RBuilder b f)) s = (s, OPanic e).
Proof.
  intros s b X f Hf H. cbn [texec rdo]. unfold ybind at 1. destruct f; try done; cbn [bd_do header_after] in *.
  - destruct name as [|c name]; [|by destruct appendToExisting]. by eexists.
  - destruct name as [|c name]; [|done]. by eexists.
  - unfold bd_WithContentType. destruct (u_mime U str) as [t|]; [done|]. by eexists.
  - by destruct isStrong.
  - destruct algo as [|c algo]; [by eexists|]. destruct sum as [|d sum]; [by eexists|done].
Qed.

(** ** Setters *)
Theorem setters : forall s b x X f x',
  s_bds s !! b = Some x -> hview s (bd_hdrs x) = Some X -> setter f -> set_field f x = Some x' ->
  exists s', texec U fuel (TDo (RBuilder b f)) s = (s', ORet YUnit) /\ changes s s' b x x' X [].
Proof.
  intros s b x X f x' Hb HX Hf Hx'. exists (put_bds s (<[b := x']> (s_bds s))).
  assert (Hh : bd_hdrs x' = bd_hdrs x).
  { destruct f; try done; cbn in Hx'; [destruct gen|destruct (_ && _)|destruct i|]; by simplify_eq. }
  split.
  - cbn [texec rdo]. apply done_unit. destruct f; try done; cbn [bd_do] in *.
    + unfold bd_WithPageGenerator, ybind, the_bd. rewrite Hb. destruct gen; [|done]. cbn in Hx'. by injection Hx' as <-.
    + unfold bd_WithStatus, ybind, the_bd. rewrite Hb. cbn in Hx'. destruct ((200 <=? code) && (code <=? 999)) eqn:Hc; [|done]. injection Hx' as <-.
      replace (code >=? 200) with true by lia. replace (code <=? 999) with true by lia. done.
    + unfold bd_WithBody, ybind, the_bd. rewrite Hb. destruct i; [|done]. cbn in Hx'. by injection Hx' as <-.
    + unfold bd_WithError, ybind, the_bd. rewrite Hb. cbn in Hx'. by injection Hx' as <-.
  - split; [done|]. split; [rewrite Hh; done|]. split; [done|]. split; [done|]. split; [cbn; rewrite app_nil_r; by destruct (s_h s)|]. done.
Qed.
Theorem setters_raise : forall s b x f,
  s_bds s !! b = Some x -> setter f -> set_field f x = None ->
  texec U fuel (TDo (RBuilder b f)) s = (s, OPanic PAssert).
Proof.
  intros s b x f Hb Hf Hx. cbn [texec rdo]. unfold ybind at 1. destruct f; try done; cbn [bd_do] in *.
  - unfold bd_WithPageGenerator, ybind, the_bd. rewrite Hb. by destruct gen.
  - unfold bd_WithStatus, ybind, the_bd. rewrite Hb. cbn in Hx. destruct ((200 <=? code) && (code <=? 999)) eqn:Hc; [done|].
    unfold massert. destruct (code >=? 200) eqn:H1; [|done]. replace (code <=? 999) with false by lia. done.
  - unfold bd_WithBody, ybind, the_bd. rewrite Hb. by destruct i.
Qed.

(** ** Bodies from bytes *)
Definition only_new (h h' : heap (wst V)) : Prop :=
  exists o, h' = {| h_b := h_b h ++ [o]; h_c := h_c h; h_w := h_w h; h_log := h_log h |}.
Lemma from_bytes s d : zlen d <= max_slice ->
  exists s' i, on_heap U (FromBytes d) s = (s', ORet i) /\ serves U fuel s s' i d /\ s' = put_h s (s_h s') /\ only_new (s_h s) (s_h s') /\ i = length (h_b (s_h s)).
Proof.
  intros Hd. destruct (serves_bytes U fuel s d Hd) as (s' & i & H & Hs). exists s', i. split; [done|]. split; [done|].
  unfold on_heap, FromBytes, Empty in H. destruct (zlen d =? 0); cbn in H; injection H as <- <-; (split; [done|]); (split; [eexists; reflexivity|done]).
Qed.
Lemma serves_put s s' s2 i d : s_h s2 = s_h s' -> serves U fuel s s' i d -> serves U fuel s s2 i d.
Proof. intros H [H1 H2]. split; [done|]. by rewrite H. Qed.
Lemma serves_from s0 s s' i d : s_h s = s_h s0 -> serves U fuel s s' i d -> serves U fuel s0 s' i d.
Proof. intros H [H1 H2]. split; [by rewrite <- H|done]. Qed.

Lemma encoders_swf : forall s b x X f src ctype g,
  swf s -> s_bds s !! b = Some x -> hview s (bd_hdrs x) = Some X ->
  encoding_of f = Some (Some (inl src), ctype, g) -> zlen (g src) <= max_slice ->
  exists s' m i o, texec U fuel (TDo (RBuilder b f)) s = (s', ORet YUnit) /\
    changes s s' b x {| bd_gen := bd_gen x; bd_code := bd_code x; bd_hdrs := Some m; bd_body := Some i; bd_err := bd_err x |}
      (<["Content-Type" := [ctype]]> X) [o] /\
    serves U fuel s s' i (g src) /\ i = length (h_b (s_h s)).
Proof.
  intros s b x X f src ctype g Hs Hb HX Hf Hlen.
  assert (Hgo : forall mk, mk = FromBytes (g src) ->
    exists s' m i o, bd_encoded U b mk ctype s = (s', ORet tt) /\
      changes s s' b x {| bd_gen := bd_gen x; bd_code := bd_code x; bd_hdrs := Some m; bd_body := Some i; bd_err := bd_err x |}
        (<["Content-Type" := [ctype]]> X) [o] /\ serves U fuel s s' i (g src) /\ i = length (h_b (s_h s))).
  { intros mk ->. destruct (from_bytes s (g src) Hlen) as (s1 & i & H1 & Hsv & Hs1 & (o & Ho) & Hi). unfold bd_encoded. unfold ybind at 1. rewrite H1.
    unfold ybind at 1, the_bd. rewrite Hs1. cbn. rewrite Hb. unfold ybind at 1. cbn [set_bd].
    set (x1 := bd_set_body x (Some i)). set (s2 := put_bds (put_h s (s_h s1)) (<[b := x1]> (s_bds s))).
    destruct (Headers_Set s2 b x1 X "Content-Type" ctype) as (s' & m & H2 & _ & Hc).
    { done. } { apply list_lookup_insert. by eapply lookup_lt_Some. } { exact HX. }
    exists s', m, i, o. split; [exact H2|]. destruct Hc as (C1 & C2 & C3 & C4 & C5 & C6). split.
    - split; [rewrite C1; cbn; by rewrite list_insert_insert|]. split; [exact C2|]. split; [exact C3|]. split; [exact C4|]. split; [|exact C6].
      rewrite C5. cbn. rewrite Ho. cbn. by rewrite app_nil_r.
    - split; [|exact Hi]. eapply serves_put; [|exact Hsv]. rewrite C5, app_nil_r. cbn. by destruct (s_h s1). }
  cbn [texec rdo].
  assert (Hd : forall mk, mk = FromBytes (g src) -> bd_do U b f = bd_encoded U b mk ctype ->
    exists s' m i o, ybind (bd_do U b f) (fun _ => yret YUnit) s = (s', ORet YUnit) /\
    changes s s' b x {| bd_gen := bd_gen x; bd_code := bd_code x; bd_hdrs := Some m; bd_body := Some i; bd_err := bd_err x |}
      (<["Content-Type" := [ctype]]> X) [o] /\ serves U fuel s s' i (g src) /\ i = length (h_b (s_h s))).
  { intros mk Hmk Heq. destruct (Hgo mk Hmk) as (s' & m & i & o & H & Hc & Hv). exists s', m, i, o. split; [|done]. rewrite Heq. by apply done_unit. }
  destruct f; cbn in Hf; try discriminate Hf; simplify_eq; cbn [bd_do] in *.
  - eapply Hd; [|done]. cbn. by destruct src.
  - eapply Hd; [|done]. cbn. by rewrite crlf_loop_spec.
  - eapply Hd; [|done]. done.
  - eapply Hd; [|done]. done.
Qed.
Theorem encoders : forall s b x X f src ctype g,
  treaches U fuel s -> s_bds s !! b = Some x -> hview s (bd_hdrs x) = Some X ->
  encoding_of f = Some (Some (inl src), ctype, g) -> zlen (g src) <= max_slice ->
  exists s' m i o, texec U fuel (TDo (RBuilder b f)) s = (s', ORet YUnit) /\
    changes s s' b x {| bd_gen := bd_gen x; bd_code := bd_code x; bd_hdrs := Some m; bd_body := Some i; bd_err := bd_err x |}
      (<["Content-Type" := [ctype]]> X) [o] /\
    serves U fuel s s' i (g src).
Proof.
  intros s b x X f src ctype g Hs%treaches_swf Hb HX Hf Hlen. destruct (encoders_swf s b x X f src ctype g Hs Hb HX Hf Hlen) as (s' & m & i & o & H1 & H2 & H3 & _). eauto 9.
Qed.
Theorem encoders_raise : forall s b f src ctype g,
  encoding_of f = Some (src, ctype, g) ->
  (forall e, src = Some (inr e) -> texec U fuel (TDo (RBuilder b f)) s = (s, OPanic (PError e))) /\
  (src = None -> texec U fuel (TDo (RBuilder b f)) s = (s, OPanic PAssert)).
Proof.
  intros s b f src ctype g Hf. destruct f; cbn in Hf; try discriminate Hf; simplify_eq; (split; [intros e ?|intros ?]); simplify_eq; by destruct s.
Qed.

(** ** Build *)
Lemma build_swf : forall s b x X i s' r,
  swf s -> s_bds s !! b = Some x -> hview s (bd_hdrs x) = Some X -> bd_body x = Some i ->
  texec U fuel (TDo (RBuild b)) s = (s', ORet (YHandle (Some r))) ->
  exists n h m, exec (wenv U) fuel (s_h s) (Call i BytesRemaining) = (h, ORet (RInt n)) /\
    s_rps s' = s_rps s ++ [{| rp_code := if bd_code x =? 0 then 200 else bd_code x; rp_hdrs := Some m; rp_body := Some i; rp_err := bd_err x |}] /\
    r = length (s_rps s) /\ s_h s' = h /\ (bd_hdrs x = None \/ bd_hdrs x = Some m) /\
    exists X', view s' m = Some X' /\
      (X' !! "Content-Type" = match X !! "Content-Type" with Some v => Some v | None => Some ["application/octet-stream"] end) /\
      (X' !! "Content-Length" = match X !! "Content-Length" with Some v => Some v | None => if 0 <=? n then Some [itoa n] else None end) /\
      (forall key, key <> "Content-Type" -> key <> "Content-Length" -> X' !! key = X !! key).
Proof.
  intros s b x X i s' r Hs Hb HX Hi H. cbn [texec rdo] in H. ystep H. injection H as -> ->. unfold bd_Build in E. ystep E.
  unfold the_bd in E0. rewrite Hb in E0. injection E0 as <- <-. ystep E. rewrite Hi in E0. injection E0 as <- <-. ystep E. unfold set_bd in E0. injection E0 as <- <-. cbv zeta in E.
  set (s1 := put_bds s _) in E. ystep E.
  assert (Hm : exists s2 m, s0 = s2 /\ a = m /\ view s2 m = Some X /\ swf s2 /\ s_h s2 = s_h s /\ s_rps s2 = s_rps s /\ (bd_hdrs x = None \/ bd_hdrs x = Some m)).
  { destruct (bd_hdrs x) as [m|] eqn:Hh.
    - injection E0 as <- <-. exists s1, m. repeat (split; [done|]). by right.
    - injection E0 as <- <-. eexists _, _. split; [reflexivity|]. split; [reflexivity|]. injection HX as <-. split.
      { unfold view. cbn. rewrite lookup_app_r, Nat.sub_diag by done. cbn. by rewrite fmap_empty. }
      split; [apply sound_maps_app; [done|apply sound_empty]|]. by repeat (split; [done|]); left. }
  destruct Hm as (s2 & m & -> & -> & Hv & Hs2 & Hh2 & Hr2 & Hor). clear E0. ystep E.
  destruct (fill_view s2 m X contentType "application/octet-stream" Hs2 Hv) as (s3 & Hf3 & (Rh3 & _ & Rr3 & _) & Hv3 & Hs3 & _).
  rewrite Hf3 in E0. injection E0 as <- <-. ystep E. unfold body_call in E0. rewrite Hi in E0. unfold ybind, of_opt, yret, body_cmd in E0.
  rewrite Rh3, Hh2 in E0. destruct (uexec U fuel (s_h s) (Call i BytesRemaining)) as [h o] eqn:Hx. injection E0 as <- ->. apply uexec_ret in Hx.
  destruct a as [n| | | | | | | |]; try done. ystep E. unfold make_rp in E. injection E as <- <-. rewrite Hi. set (X1 := match X !! contentType with Some _ => X | None => _ end) in Hv3.
  assert (Hlast : exists X2, s_rps s0 = s_rps s /\ view s0 m = Some X2 /\ X2 = (if 0 <=? n then match X1 !! contentLength with Some _ => X1 | None => <[contentLength := [itoa n]]> X1 end else X1) /\ s_h s0 = h).
  { replace (0 <=? n) with (n >=? 0) by lia. destruct (n >=? 0).
    - destruct (fill_view (put_h s3 h) m X1 contentLength (itoa n)) as (s4 & Hf4 & (Rh4 & _ & Rr4 & _) & Hv4 & _); [exact Hs3|exact Hv3|].
      rewrite Hf4 in E0. injection E0 as <- _. eexists. split; [rewrite Rr4; cbn; congruence|]. split; [exact Hv4|]. split; [done|]. by rewrite Rh4.
    - injection E0 as <- _. exists X1. split; [cbn; congruence|]. split; [exact Hv3|]. done. }
  destruct Hlast as (X2 & Hr & Hv2 & HX2 & Hh). exists n, h, m. split; [done|]. split; [cbn; by rewrite Hr|]. split; [by rewrite Hr|]. split; [done|]. split; [done|].
  exists X2. split; [exact Hv2|].
  assert (HT : contentType = "Content-Type") by done. assert (HL : contentLength = "Content-Length") by done. rewrite HT, HL in *.
  assert (H1T : X1 !! "Content-Type" = match X !! "Content-Type" with Some v => Some v | None => Some ["application/octet-stream"] end).
  { unfold X1. rewrite ?HT. destruct (X !! "Content-Type") eqn:HXt; [done|]. by rewrite lookup_insert. }
  assert (H1o : forall key, key <> "Content-Type" -> X1 !! key = X !! key).
  { intros key Hk. unfold X1. rewrite ?HT. destruct (X !! "Content-Type"); [done|]. by rewrite lookup_insert_ne. }
  assert (H2o : forall key, key <> "Content-Length" -> X2 !! key = X1 !! key).
  { intros key Hk. rewrite HX2. destruct (0 <=? n); [|done]. destruct (X1 !! "Content-Length"); [done|]. by rewrite lookup_insert_ne. }
  split; [rewrite H2o by done; exact H1T|]. split.
  - rewrite HX2, H1o by done. destruct (0 <=? n); [|rewrite H1o by done; by destruct (X !! "Content-Length")].
    destruct (X !! "Content-Length") eqn:HXl; [by rewrite H1o|by rewrite lookup_insert].
  - intros key K1 K2. by rewrite H2o, H1o.
Qed.
Theorem build : forall s b x X i s' r,
  treaches U fuel s -> s_bds s !! b = Some x -> hview s (bd_hdrs x) = Some X -> bd_body x = Some i ->
  texec U fuel (TDo (RBuild b)) s = (s', ORet (YHandle (Some r))) ->
  exists n h m, exec (wenv U) fuel (s_h s) (Call i BytesRemaining) = (h, ORet (RInt n)) /\
    s_rps s' = s_rps s ++ [{| rp_code := if bd_code x =? 0 then 200 else bd_code x; rp_hdrs := Some m; rp_body := Some i; rp_err := bd_err x |}] /\
    r = length (s_rps s) /\ s_h s' = h /\ (bd_hdrs x = None \/ bd_hdrs x = Some m) /\
    exists X', view s' m = Some X' /\
      (X' !! "Content-Type" = match X !! "Content-Type" with Some v => Some v | None => Some ["application/octet-stream"] end) /\
      (X' !! "Content-Length" = match X !! "Content-Length" with Some v => Some v | None => if 0 <=? n then Some [itoa n] else None end) /\
      (forall key, key <> "Content-Type" -> key <> "Content-Length" -> X' !! key = X !! key).
Proof. intros s b x X i s' r Hs%treaches_swf. by apply build_swf. Qed.
Theorem build_needs_body : forall s b x,
  s_bds s !! b = Some x -> bd_body x = None -> texec U fuel (TDo (RBuild b)) s = (s, OPanic PAssert).
Proof. intros s b x Hb Hx. cbn [texec rdo]. unfold ybind at 1, bd_Build, ybind at 1, the_bd. rewrite Hb. unfold ybind. rewrite Hx. done. Qed.
Theorem build_resets : forall s b x i s' o,
  s_bds s !! b = Some x -> bd_body x = Some i -> texec U fuel (TDo (RBuild b)) s = (s', o) ->
  s_bds s' = <[b := {| bd_gen := bd_gen x; bd_code := 0; bd_hdrs := None; bd_body := None; bd_err := None |}]> (s_bds s).
Proof.
  intros s b x i s' o Hb Hi H. cbn [texec rdo] in H.
  set (s1 := put_bds s (<[b := {| bd_gen := bd_gen x; bd_code := 0; bd_hdrs := None; bd_body := None; bd_err := None |}]> (s_bds s))).
  assert (Hk : forall A (m : M A), pres (fun s s' : state V => s_bds s' = s_bds s) m -> s_bds (m s1).1 = s_bds s1) by (intros A m Hm; apply Hm).
  unfold ybind at 1 in H. unfold bd_Build in H. unfold ybind at 1, the_bd in H. rewrite Hb in H. unfold ybind at 1 in H. rewrite Hi in H. cbn [massert yret] in H.
  unfold ybind at 1 in H. cbn [set_bd] in H. fold s1 in H.
  match type of H with (let (_, _) := ?m s1 in _) = _ => assert (Hp : s_bds (m s1).1 = s_bds s1); [|destruct (m s1) as [s2 [r|e|]]; cbn in Hp; unfold yret in H; injection H as <- _; exact Hp] end.
  apply Hk. cbv zeta.
  assert (Reflexive (fun s s' : state V => s_bds s' = s_bds s)) by done.
  assert (Transitive (fun s s' : state V => s_bds s' = s_bds s)) by (intros ? ? ? ? ?; congruence).
  assert (Hfill : forall m key v, pres (fun s s' : state V => s_bds s' = s_bds s) (fill_in m key v)).
  { intros m key v s2. unfold fill_in, ybind, the_map. destruct (s_maps s2 !! m) as [y|]; [|done]. by destruct (y !! key). }
  assert (Hcall : forall b f, pres (fun s s' : state V => s_bds s' = s_bds s) (body_call U fuel b f)).
  { intros b0 f s2. unfold body_call, ybind, of_opt, body_cmd, yret, mpanic. destruct b0; [|done]. by destruct (uexec _ _ _ _). }
  assert (Hmk : forall y, pres (fun s s' : state V => s_bds s' = s_bds s) (make_rp y)) by (intros y s2; done).
  assert (Hmm : forall y, pres (fun s s' : state V => s_bds s' = s_bds s) (make_map y)) by (intros y s2; done).
  pres_go.
Qed.

(** ** Pages *)
Lemma sets_trans s1 s2 s3 m X2 X3 : sets s1 s2 m X2 -> sets s2 s3 m X3 -> sets s1 s3 m X3.
Proof.
  intros (R1 & V1 & W1 & O1) (R2 & V2 & W2 & O2). split; [by eapply rest_trans|]. split; [done|]. split; [done|]. intros m' Hne. rewrite O2, O1; done.
Qed.
(** A new map with some entries. *)
Fixpoint set_each (m : mid) (l : list (string * string)) : M (V:=V) unit :=
  match l with [] => yret tt | (key, value) :: l => ybind (hdr_Set m key value) (fun _ => set_each m l) end.
Lemma set_each_view m l : forall s X, swf s -> view s m = Some X ->
  exists s', set_each m l s = (s', ORet tt) /\ sets s s' m (foldl (fun X '(key, value) => <[CanonicalHeaderKey key := [value]]> X) X l).
Proof.
  induction l as [|[key value] l IH]; intros s X Hs HX; cbn [set_each foldl].
  - exists s. by repeat (split; [done|]).
  - destruct (Set_view s m X key value Hs HX) as (s1 & H1 & S1). unfold ybind. rewrite H1. destruct (IH s1 (<[CanonicalHeaderKey key := [value]]> X)) as (s2 & H2 & S2).
    { apply S1. } { apply S1. } exists s2. split; [done|]. by eapply sets_trans.
Qed.
Lemma page (l : list (string * string)) (d : bytes) s : swf s -> zlen d <= max_slice ->
  exists s' m i o, ybind (make_map ∅) (fun m => ybind (set_each m l) (fun _ => ybind (on_heap U (FromBytes d)) (fun i => yret (Some m, Some i)))) s
      = (s', ORet (Some m, Some i)) /\
    view s' m = Some (foldl (fun X '(key, value) => <[CanonicalHeaderKey key := [value]]> X) ∅ l) /\ serves U fuel s s' i d /\
    s_bds s' = s_bds s /\ s_rps s' = s_rps s /\ s_met s' = s_met s /\
    s_h s' = {| h_b := h_b (s_h s) ++ [o]; h_c := h_c (s_h s); h_w := h_w (s_h s); h_log := h_log (s_h s) |} /\
    (forall m' Y, view s m' = Some Y -> view s' m' = Some Y) /\ i = length (h_b (s_h s)).
Proof.
  intros Hs Hd. set (s1 := put_maps s (s_maps s ++ [∅])). set (m := length (s_maps s)).
  assert (Hs1 : swf s1) by (apply sound_maps_app; [done|apply sound_empty]).
  assert (Hv1 : view s1 m = Some ∅). { unfold view. cbn. rewrite lookup_app_r, Nat.sub_diag by done. cbn. by rewrite fmap_empty. }
  destruct (set_each_view m l s1 ∅ Hs1 Hv1) as (s2 & H2 & (Rh & Rb & Rr & Rm) & Hv2 & Hs2 & Hoth).
  destruct (from_bytes s2 d Hd) as (s3 & i & H3 & Hsv & Hs3 & (o & Ho) & Hi). exists s3, m, i, o. split.
  { unfold ybind at 1. unfold make_map. fold s1 m. unfold ybind at 1. rewrite H2. unfold ybind. rewrite H3. done. }
  split; [rewrite Hs3; exact Hv2|]. split; [by eapply serves_from; [|exact Hsv]|]. rewrite Hs3. cbn. split; [done|]. split; [done|]. split; [done|].
  split; [rewrite Ho, Rh; done|]. split; [|rewrite Hi, Rh; done]. intros m' Y HY. change (view s2 m' = Some Y). rewrite Hoth.
  - apply view_lookup in HY as (y & Hy & ->). unfold view. cbn. by rewrite (lookup_app_l_Some _ _ _ _ Hy).
  - apply view_lt in HY. unfold m, mid in *. lia.
Qed.
Lemma zlen_text t : zlen (list_ascii_of_string t) = Z.of_nat (String.length t).
Proof. unfold zlen. f_equal. induction t; [done|]. cbn. congruence. Qed.
Lemma redirect_text_page t : list_ascii_of_string (redirect_text t) = page_with (list_ascii_of_string (EscapeString t)).
Proof. unfold redirect_text, page_with. rewrite !list_of_append. done. Qed.

Lemma redirect_page_swf : forall s b x c location,
  swf s -> s_bds s !! b = Some x -> bd_gen x = None -> 300 <= c <= 399 -> TrimSpace location <> "" ->
  let text := page_with (list_ascii_of_string (EscapeString (TrimSpace location))) in
  zlen text <= max_slice ->
  exists s' m i o, texec U fuel (TDo (RBuilder b (RedirectPage c location))) s = (s', ORet YUnit) /\
    changes s s' b x {| bd_gen := None; bd_code := c; bd_hdrs := Some m; bd_body := Some i; bd_err := None |}
      {[ "Cache-Control" := ["max-age=86400, must-revalidate"]; "Content-Length" := [itoa (zlen text)];
         "Content-Type" := ["text/html; charset=utf-8"]; "Location" := [TrimSpace location] ]} [o] /\
    serves U fuel s s' i text /\ i = length (h_b (s_h s)).
Proof.
  intros s b x c location Hs Hb Hg Hc Hl text Hlen. cbn [texec rdo bd_do]. unfold bd_RedirectPage. cbv zeta.
  destruct (page [("Location", TrimSpace location); ("Content-Type", "text/html; charset=utf-8");
     ("Content-Length", itoa (slen (redirect_text (TrimSpace location)))); ("Cache-Control", "max-age=86400, must-revalidate")]
     (list_ascii_of_string (redirect_text (TrimSpace location))) s Hs) as (s1 & m & i & o & H1 & Hv & Hsv & Hbd & Hr & Hm & Hh & Hold & Hi).
  { rewrite redirect_text_page. exact Hlen. }
  set (x' := {| bd_gen := None; bd_code := c; bd_hdrs := Some m; bd_body := Some i; bd_err := None |}).
  exists (put_bds s1 (<[b := x']> (s_bds s1))), m, i, o. split.
  - unfold ybind at 1. replace (c >=? 300) with true by lia. cbn [massert]. unfold ybind at 1. cbn [yret]. replace (c <=? 399) with true by lia. cbn [massert]. unfold ybind at 1. cbn [yret].
    destruct (String.eqb_spec (TrimSpace location) "") as [|_]; [done|]. cbn [negb massert]. unfold ybind at 1. cbn [yret]. unfold ybind at 1, the_bd. rewrite Hb, Hg.
    unfold ybind at 1. cbn [gen_redirect]. unfold default_redirect. cbv zeta.
    assert (Heq : forall t c0, ybind (make_map ∅) (fun m => ybind (hdr_Set m "Location" t) (fun _ => ybind (hdr_Set m "Content-Type" "text/html; charset=utf-8") (fun _ =>
      ybind (hdr_Set m "Content-Length" (itoa (slen (redirect_text t)))) (fun _ => ybind (hdr_Set m "Cache-Control" "max-age=86400, must-revalidate") (fun _ =>
      ybind (on_heap U (FromBytes (list_ascii_of_string (redirect_text t)))) (fun b => yret (Some m, Some b))))))) s = (s1, ORet c0) <->
      ybind (make_map ∅) (fun m => ybind (set_each m [("Location", t); ("Content-Type", "text/html; charset=utf-8");
     ("Content-Length", itoa (slen (redirect_text t))); ("Cache-Control", "max-age=86400, must-revalidate")]) (fun _ =>
      ybind (on_heap U (FromBytes (list_ascii_of_string (redirect_text t)))) (fun i => yret (Some m, Some i)))) s = (s1, ORet c0)).
    { intros t c0. cbn [set_each]. unfold ybind, make_map. cbn [yret]. destruct (hdr_Set _ "Location" _ _) as [? [?|?|]]; [|done|done].
      destruct (hdr_Set _ "Content-Type" _ _) as [? [?|?|]]; [|done|done]. destruct (hdr_Set _ "Content-Length" _ _) as [? [?|?|]]; [|done|done].
      destruct (hdr_Set _ "Cache-Control" _ _) as [? [?|?|]]; [|done|done]. done. }
    apply Heq in H1. rewrite H1. done.
  - split.
    + split; [cbn; by rewrite Hbd|]. split.
      { cbn. change (view s1 m = Some {[ "Cache-Control" := ["max-age=86400, must-revalidate"]; "Content-Length" := [itoa (zlen text)];
         "Content-Type" := ["text/html; charset=utf-8"]; "Location" := [TrimSpace location] ]}). rewrite Hv. f_equal. cbn [foldl].
        change (CanonicalHeaderKey "Location") with "Location". change (CanonicalHeaderKey "Content-Type") with "Content-Type".
        change (CanonicalHeaderKey "Content-Length") with "Content-Length". change (CanonicalHeaderKey "Cache-Control") with "Cache-Control".
        assert (slen (redirect_text (TrimSpace location)) = zlen text) as ->. { unfold text. rewrite <- redirect_text_page. by rewrite zlen_text. }
        done. }
      split; [exact Hr|]. split; [exact Hm|]. split; [exact Hh|]. intros m' Y HY _. by apply Hold.
    + split; [|exact Hi]. eapply serves_put; [|unfold text; rewrite <- redirect_text_page; exact Hsv]. done.
Qed.
Theorem redirect_page : forall s b x c location,
  treaches U fuel s -> s_bds s !! b = Some x -> bd_gen x = None -> 300 <= c <= 399 -> TrimSpace location <> "" ->
  let text := page_with (list_ascii_of_string (EscapeString (TrimSpace location))) in
  zlen text <= max_slice ->
  exists s' m i o, texec U fuel (TDo (RBuilder b (RedirectPage c location))) s = (s', ORet YUnit) /\
    changes s s' b x {| bd_gen := None; bd_code := c; bd_hdrs := Some m; bd_body := Some i; bd_err := None |}
      {[ "Cache-Control" := ["max-age=86400, must-revalidate"]; "Content-Length" := [itoa (zlen text)];
         "Content-Type" := ["text/html; charset=utf-8"]; "Location" := [TrimSpace location] ]} [o] /\
    serves U fuel s s' i text.
Proof.
  intros s b x c location Hs%treaches_swf Hb Hg Hc Hl text Hlen. destruct (redirect_page_swf s b x c location Hs Hb Hg Hc Hl Hlen) as (s' & m & i & o & H1 & H2 & H3 & _). eauto 9.
Qed.
Theorem redirect_needs_location : forall s b c location,
  TrimSpace location = "" -> texec U fuel (TDo (RBuilder b (RedirectPage c location))) s = (s, OPanic PAssert).
Proof.
  intros s b c location Hl. cbn [texec rdo bd_do]. unfold ybind at 1, bd_RedirectPage. cbv zeta. rewrite Hl. unfold ybind, massert.
  destruct (c >=? 300); [|done]. destruct (c <=? 399); done.
Qed.
Lemma error_page_swf : forall s b x c err,
  swf s -> s_bds s !! b = Some x -> bd_gen x = None -> 200 <= c <= 999 ->
  let text := list_ascii_of_string (itoa c) ++ [" "%char] ++ list_ascii_of_string (u_statustext U c) ++ ["013"%char; "010"%char] in
  zlen text <= max_slice ->
  exists s' m i o, texec U fuel (TDo (RBuilder b (ErrorPage c (Some err)))) s = (s', ORet YUnit) /\
    changes s s' b x {| bd_gen := None; bd_code := c; bd_hdrs := Some m; bd_body := Some i; bd_err := Some err |}
      {[ "Cache-Control" := ["no-cache"]; "Content-Length" := [itoa (zlen text)]; "Content-Type" := ["text/plain; charset=utf-8"] ]} [o] /\
    serves U fuel s s' i text /\ i = length (h_b (s_h s)).
Proof.
  intros s b x c err Hs Hb Hg Hc text Hlen. cbn [texec rdo bd_do]. unfold bd_ErrorPage.
  assert (Ht : list_ascii_of_string (error_text U c) = text). { unfold error_text. rewrite !list_of_append. done. }
  destruct (page [("Content-Type", "text/plain; charset=utf-8"); ("Content-Length", itoa (slen (error_text U c))); ("Cache-Control", "no-cache")]
     (list_ascii_of_string (error_text U c)) s Hs) as (s1 & m & i & o & H1 & Hv & Hsv & Hbd & Hr & Hm & Hh & Hold & Hi).
  { by rewrite Ht. }
  set (x' := {| bd_gen := None; bd_code := c; bd_hdrs := Some m; bd_body := Some i; bd_err := Some err |}).
  exists (put_bds s1 (<[b := x']> (s_bds s1))), m, i, o. split.
  - unfold ybind at 1. replace (c >=? 200) with true by lia. cbn [massert]. unfold ybind at 1. cbn [yret]. replace (c <=? 999) with true by lia. cbn [massert]. unfold ybind at 1. cbn [yret].
    unfold ybind at 1, the_bd. rewrite Hb, Hg. unfold ybind at 1. cbn [gen_error]. unfold default_error. cbv zeta.
    assert (Heq : forall c0, ybind (make_map ∅) (fun m => ybind (hdr_Set m "Content-Type" "text/plain; charset=utf-8") (fun _ =>
      ybind (hdr_Set m "Content-Length" (itoa (slen (error_text U c)))) (fun _ => ybind (hdr_Set m "Cache-Control" "no-cache") (fun _ =>
      ybind (on_heap U (FromBytes (list_ascii_of_string (error_text U c)))) (fun b => yret (Some m, Some b)))))) s = (s1, ORet c0) <->
      ybind (make_map ∅) (fun m => ybind (set_each m [("Content-Type", "text/plain; charset=utf-8");
     ("Content-Length", itoa (slen (error_text U c))); ("Cache-Control", "no-cache")]) (fun _ =>
      ybind (on_heap U (FromBytes (list_ascii_of_string (error_text U c)))) (fun i => yret (Some m, Some i)))) s = (s1, ORet c0)).
    { intros c0. cbn [set_each]. unfold ybind, make_map. cbn [yret].
      destruct (hdr_Set _ "Content-Type" _ _) as [? [?|?|]]; [|done|done]. destruct (hdr_Set _ "Content-Length" _ _) as [? [?|?|]]; [|done|done].
      destruct (hdr_Set _ "Cache-Control" _ _) as [? [?|?|]]; [|done|done]. done. }
    apply Heq in H1. rewrite H1. done.
  - split.
    + split; [cbn; by rewrite Hbd|]. split.
      { cbn. change (view s1 m = Some {[ "Cache-Control" := ["no-cache"]; "Content-Length" := [itoa (zlen text)]; "Content-Type" := ["text/plain; charset=utf-8"] ]}).
        rewrite Hv. f_equal. cbn [foldl]. change (CanonicalHeaderKey "Content-Type") with "Content-Type".
        change (CanonicalHeaderKey "Content-Length") with "Content-Length". change (CanonicalHeaderKey "Cache-Control") with "Cache-Control".
        assert (slen (error_text U c) = zlen text) as ->. { rewrite <- Ht. by rewrite zlen_text. }
        done. }
      split; [exact Hr|]. split; [exact Hm|]. split; [exact Hh|]. intros m' Y HY _. by apply Hold.
    + split; [|exact Hi]. eapply serves_put; [|rewrite <- Ht; exact Hsv]. done.
Qed.
Theorem error_page : forall s b x c err,
  treaches U fuel s -> s_bds s !! b = Some x -> bd_gen x = None -> 200 <= c <= 999 ->
  let text := list_ascii_of_string (itoa c) ++ [" "%char] ++ list_ascii_of_string (u_statustext U c) ++ ["013"%char; "010"%char] in
  zlen text <= max_slice ->
  exists s' m i o, texec U fuel (TDo (RBuilder b (ErrorPage c (Some err)))) s = (s', ORet YUnit) /\
    changes s s' b x {| bd_gen := None; bd_code := c; bd_hdrs := Some m; bd_body := Some i; bd_err := Some err |}
      {[ "Cache-Control" := ["no-cache"]; "Content-Length" := [itoa (zlen text)]; "Content-Type" := ["text/plain; charset=utf-8"] ]} [o] /\
    serves U fuel s s' i text.
Proof.
  intros s b x c err Hs%treaches_swf Hb Hg Hc text Hlen. destruct (error_page_swf s b x c err Hs Hb Hg Hc Hlen) as (s' & m & i & o & H1 & H2 & H3 & _). eauto 9.
Qed.
Theorem error_needs_error : forall s b c, texec U fuel (TDo (RBuilder b (ErrorPage c None))) s = (s, OPanic PAssert).
Proof.
  intros s b c. cbn [texec rdo bd_do]. unfold ybind at 1, bd_ErrorPage. unfold ybind, massert. destruct (c >=? 200); [|done]. destruct (c <=? 999); done.
Qed.
End Main.

(** ** Header names spelled otherwise *)
From Verif Require Import WitnessResp.
Definition odd_spelling : list tcmd := map TDo
  [RB (NewString "abc"); RNewMap; RMap (HSet 1 "content-type" ["text/plain"] 0); RNewBuilder; RBuilder 0 (WithHeaders (Some 1%nat));
   RBuilder 0 (WithBody (Some 1%nat)); RBuild 0].
Theorem spelling : exists (s : state (list nat)) (r : nat) (x : response) (m : mid) (X : header),
  treaches (web_ok []) 9 s /\ s_rps s !! r = Some x /\ rp_hdrs x = Some m /\ view s m = Some X /\
  X !! "content-type" = Some ["text/plain"] /\ X !! "Content-Type" = Some ["application/octet-stream"] /\
  CanonicalHeaderKey "content-type" = CanonicalHeaderKey "Content-Type".
Proof.
  exists (after (web_ok []) 9 (start [] 1) odd_spelling), 0%nat. eexists _, _, _. split; [apply after_reaches|].
  split; [by vm_compute|]. split; [by vm_compute|]. split; [by vm_compute|]. by vm_compute.
Qed.
