(** * Who has which header map: proofs of C35 and C36 *)
From stdpp Require Import gmap.
From Coq Require Import ZifyBool.
From Verif Require Import BuilderSpec RespFacts HdrFacts ViewFacts BuilderMain.
From Verif Require RegionProofs TidyProofs.

Section Own.
Context {V : Type} (U : uenv V) (fuel : nat).
Implicit Types (s : state V).
Import RegionProofs.

(** ** A header map apart from the others *)
Lemma swf_array s m key a : swf s -> array_of s m key = Some a -> (a < length (s_arrs s))%nat.
Proof.
  intros Hs. unfold array_of. destruct (s_maps s !! m) as [x|] eqn:Hm; [|done]. destruct (x !! key) as [v|] eqn:Hv; [|done].
  intros Ha. assert (H : sound_slice (s_arrs s) v) by (by eapply Hs). unfold sound_slice in H. rewrite Ha in H. destruct H as (l & Hl & _). by eapply lookup_lt_Some.
Qed.
Lemma untouched s m X (bs : nat -> Prop) cs s' os :
  swf s -> hview s m = Some X -> apart s m ->
  (forall b, bs b -> leaves_alone U s m b) -> (forall b, (length (s_bds s) <= b)%nat -> bs b) ->
  Forall (keeps_to U bs (fun m' => m <> Some m')) cs -> thistory U fuel s (map TDo cs) = (s', os) ->
  hview s' m = Some X /\ (forall b, ~ bs b -> s_bds s' !! b = s_bds s !! b) /\ forall r y, s_rps s !! r = Some y -> s_rps s' !! r = Some y.
Proof.
  intros Hs HX Hap Hbs Hnew Hcs H.
  set (az := fun a => forall m0 key, m = Some m0 -> array_of s m0 key <> Some a).
  pose proof (r_history U fuel bs (fun m' => m <> Some m') az s cs Hcs) as HR. rewrite H in HR. cbn in HR.
  assert (I : inv U bs (fun m' => m <> Some m') az s).
  { split.
    - intros m' x Hm' Hx key v Hv a Ha m0 key' -> Ha'. eapply (Hap m0 m' key' key a); [done|by intros ->|done|]. unfold array_of.
      rewrite (Hx : s_maps s !! (m' : mid) = Some x). by rewrite Hv.
    - intros b x Hb Hx. destruct (Hbs b Hb x Hx) as [Hg Hh]. split; [done|]. intros m' Hm'. intros E. destruct Hh as [->|Hh]; [done|]. apply Hh. by rewrite Hm', E.
    - intros m' Hle ->. cbn in HX. apply view_lt in HX. unfold mid in *. lia.
    - intros a Hle m0 key -> Ha. apply swf_array in Ha; [lia|done].
    - done. }
  destruct (HR I) as [_ F]. split; [|split].
  - destruct m as [m|]; [|done]. cbn in *. erewrite frame_view; [done|exact F|by intros ?|]. intros key a Ha Haz. by apply (Haz m key).
  - intros b Hb. by apply (f_bds _ _ _ _ _ F).
  - apply (f_rps _ _ _ _ _ F).
Qed.
Theorem builder_untouched : forall s b x X cs s' os,
  treaches U fuel s -> s_bds s !! b = Some x -> hview s (bd_hdrs x) = Some X -> apart s (bd_hdrs x) ->
  Forall (keeps_to U (fun b' => b' <> b /\ leaves_alone U s (bd_hdrs x) b') (fun m => bd_hdrs x <> Some m)) cs ->
  thistory U fuel s (map TDo cs) = (s', os) ->
  s_bds s' !! b = Some x /\ hview s' (bd_hdrs x) = Some X.
Proof.
  intros s b x X cs s' os Hs%treaches_swf Hx HX Hap Hcs H. edestruct untouched as (H1 & H2 & _); [done|done|done| | |exact Hcs|exact H|].
  - cbn. tauto.
  - cbn. intros b' Hle. apply lookup_lt_Some in Hx. split; [lia|]. intros y Hy. apply lookup_lt_Some in Hy. lia.
  - split; [|done]. rewrite H2; [done|]. cbn. tauto.
Qed.
Theorem response_untouched : forall s r y X cs s' os,
  treaches U fuel s -> s_rps s !! r = Some y -> hview s (rp_hdrs y) = Some X -> apart s (rp_hdrs y) ->
  Forall (keeps_to U (leaves_alone U s (rp_hdrs y)) (fun m => rp_hdrs y <> Some m)) cs ->
  thistory U fuel s (map TDo cs) = (s', os) ->
  s_rps s' !! r = Some y /\ hview s' (rp_hdrs y) = Some X.
Proof.
  intros s r y X cs s' os Hs%treaches_swf Hr HX Hap Hcs H. edestruct untouched as (H1 & _ & H3); [done|done|done| | |exact Hcs|exact H|].
  - done.
  - cbn. intros b' Hle z Hz. apply lookup_lt_Some in Hz. lia.
  - split; [by apply H3|done].
Qed.

(** ** Programs that keep to new objects *)
Lemma new_only s0 s (bs : nat -> Prop) cs s' os :
  (length (s_arrs s0) <= length (s_arrs s))%nat -> (length (s_maps s0) <= length (s_maps s))%nat ->
  (forall m key a, (length (s_maps s0) <= m)%nat -> array_of s m key = Some a -> (length (s_arrs s0) <= a)%nat) ->
  (forall b x, bs b -> s_bds s !! b = Some x -> returns_only U (fun m => (length (s_maps s0) <= m)%nat) (bd_gen x) /\ forall m, bd_hdrs x = Some m -> (length (s_maps s0) <= m)%nat) ->
  (forall b, (length (s_bds s) <= b)%nat -> bs b) ->
  (forall m key a, (m < length (s_maps s0))%nat -> array_of s m key = Some a -> (a < length (s_arrs s0))%nat) ->
  Forall (keeps_to U bs (fun m => (length (s_maps s0) <= m)%nat)) cs -> thistory U fuel s (map TDo cs) = (s', os) ->
  (forall m X, (m < length (s_maps s0))%nat -> view s m = Some X -> view s' m = Some X) /\
  (forall b, ~ bs b -> s_bds s' !! b = s_bds s !! b) /\ forall r y, s_rps s !! r = Some y -> s_rps s' !! r = Some y.
Proof.
  intros La Lm Hmaps Hbs Hnew Hold Hcs H.
  pose proof (r_history U fuel bs (fun m => (length (s_maps s0) <= m)%nat) (fun a => (length (s_arrs s0) <= a)%nat) s cs Hcs) as HR. rewrite H in HR. cbn in HR.
  assert (I : inv U bs (fun m => (length (s_maps s0) <= m)%nat) (fun a => (length (s_arrs s0) <= a)%nat) s).
  { split; [|exact Hbs|intros; lia|intros; lia|done].
    intros m' x Hm' Hx key v Hv a Ha. apply (Hmaps m' key); [done|]. unfold array_of.
    rewrite (Hx : s_maps s !! (m' : mid) = Some x). by rewrite Hv. }
  destruct (HR I) as [_ F]. split; [|split].
  - intros m X Hm HX. erewrite frame_view; [done|exact F|intros Hge; unfold mid in *; cbn in Hge; lia|]. intros key a Ha. apply Hold in Ha; [cbn; lia|done].
  - intros b Hb. by apply (f_bds _ _ _ _ _ F).
  - apply (f_rps _ _ _ _ _ F).
Qed.

(** ** Build *)
Lemma view_lt2 s m : (m < length (s_maps s))%nat -> exists X, view s m = Some X.
Proof. intros [x Hx]%lookup_lt_is_Some. unfold view. unfold mid in *. rewrite Hx. eauto. Qed.
Theorem build_fixed : forall s b x i s' o cs s2 os,
  treaches U fuel s -> s_bds s !! b = Some x -> bd_body x = Some i ->
  texec U fuel (TDo (RBuild b)) s = (s', o) -> returns_only U (fun m => (length (s_maps s') <= m)%nat) (bd_gen x) ->
  Forall (keeps_to U (fun b' => b' = b \/ (length (s_bds s') <= b')%nat) (fun m => (length (s_maps s') <= m)%nat)) cs ->
  thistory U fuel s' (map TDo cs) = (s2, os) ->
  (forall r y, s_rps s' !! r = Some y -> s_rps s2 !! r = Some y) /\ (forall m X, view s' m = Some X -> view s2 m = Some X).
Proof.
  intros s b x i s' o cs s2 os Hs%treaches_swf Hb Hi H Hg Hcs Hcs2.
  assert (Hs' : swf s') by (pose proof (s_texec U fuel (TDo (RBuild b)) s Hs) as G; by rewrite H in G).
  pose proof (build_resets U fuel s b x i s' o Hb Hi H) as Hbd.
  edestruct (new_only s' s') as (H1 & _ & H3); [done|done| | | | |exact Hcs|exact Hcs2|].
  - intros m key a Hm. unfold array_of. unfold mid in *. rewrite lookup_ge_None_2 by done. done.
  - cbn. intros b' y Hb' Hy. destruct Hb' as [->|Hb']; [|apply lookup_lt_Some in Hy; lia]. rewrite Hbd in Hy. rewrite list_lookup_insert in Hy by (by eapply lookup_lt_Some).
    by injection Hy as <-.
  - cbn. tauto.
  - intros m key a _. by apply swf_array.
  - split; [exact H3|]. intros m X HX. apply H1; [by eapply view_lt|done].
Qed.

(** ** Copies of header maps *)
Lemma fresh_apart s0 s o : swf s0 -> (exists l, s_maps s = s_maps s0 ++ l /\ (length l <= 1)%nat) ->
  (forall m, o = Some m -> m = length (s_maps s0) /\ forall key a, array_of s m key = Some a -> (length (s_arrs s0) <= a)%nat) ->
  apart s o.
Proof.
  intros Hs (l & Hl & Hlen) Hm m0 m' key key' a Ho Hne Ha Ha'. destruct (Hm m0 Ho) as [-> Hge]. apply Hge in Ha.
  assert (Hlt : (m' < length (s_maps s0))%nat).
  { unfold array_of in Ha'. destruct (s_maps s !! m') as [x|] eqn:Hx; [|done]. apply lookup_lt_Some in Hx. rewrite Hl, app_length in Hx. unfold mid in *. lia. }
  assert (Hz : array_of s0 m' key' = Some a). { unfold array_of in *. unfold mid in *. by rewrite Hl, lookup_app_l in Ha'. }
  apply swf_array in Hz; [lia|done].
Qed.
Lemma array_old s0 s m key a : swf s0 -> (exists l, s_maps s = s_maps s0 ++ l) -> (m < length (s_maps s0))%nat -> array_of s m key = Some a -> (a < length (s_arrs s0))%nat.
Proof.
  intros Hs [l Hl] Hm Ha. assert (Hz : array_of s0 m key = Some a). { unfold array_of in *. unfold mid in *. by rewrite Hl, lookup_app_l in Ha. }
  by apply swf_array in Hz.
Qed.
Lemma copyHeaders_one s o s' o' : copyHeaders o s = (s', ORet o') -> exists l, s_maps s' = s_maps s ++ l /\ (length l <= 1)%nat.
Proof.
  unfold copyHeaders. destruct o as [m|]; [|intros [= <- <-]; exists []; rewrite app_nil_r; by split; [|cbn; lia]].
  intros H. ystep H. unfold the_map in E. destruct (s_maps s !! m) as [x|]; [|done]. injection E as <- <-.
  destruct (bool_decide _); [injection H as <- <-; exists []; rewrite app_nil_r; by split; [|cbn; lia]|].
  ystep H. destruct (copy_entries_run (map_to_list x) ∅ s) as (arrs & dst & Hrun & _). rewrite Hrun in E. injection E as <- <-.
  ystep H. unfold make_map in E. injection E as <- <-. injection H as <- <-. by eexists [_].
Qed.
Lemma copyHeaders_none s o s' : copyHeaders o s = (s', ORet None) -> s_maps s' = s_maps s.
Proof.
  unfold copyHeaders. destruct o as [m|]; [|by intros [= <-]]. intros H. ystep H. unfold the_map in E. destruct (s_maps s !! m) as [x|]; [|done]. injection E as <- <-.
  destruct (bool_decide _); [by injection H as <-|]. ystep H. ystep H. done.
Qed.
Lemma copyBody_still o s s' r : copyBody U fuel o s = (s', r) -> s_maps s' = s_maps s /\ s_arrs s' = s_arrs s /\ s_bds s' = s_bds s /\ s_rps s' = s_rps s.
Proof. unfold copyBody. destruct o; [|by intros [= <- _]]. unfold ybind, body_cmd. destruct (uexec _ _ _ _) as [h [[]|e|]]; by intros [= <- _]. Qed.

(** Copy: the new Builder [b2] has the same fields and an equal header that
    shares no arrays; nothing existing changes. *)
Lemma copy_builder_swf : forall s b x X s' b2,
  swf s -> s_bds s !! b = Some x -> hview s (bd_hdrs x) = Some X ->
  texec U fuel (TDo (RCopyBuilder b)) s = (s', ORet (YNew (Some b2) None)) ->
  exists x2, b2 = length (s_bds s) /\ s_bds s' = s_bds s ++ [x2] /\ s_rps s' = s_rps s /\
    bd_gen x2 = bd_gen x /\ bd_code x2 = bd_code x /\ bd_err x2 = bd_err x /\
    (bd_body x = None /\ bd_body x2 = None \/
     exists i j, bd_body x = Some i /\ bd_body x2 = Some j /\ exec (wenv U) fuel (s_h s) (Call i Copy) = (s_h s', ORet (RBody j None))) /\
    hview s' (bd_hdrs x2) = Some X /\ apart s' (bd_hdrs x2) /\
    (forall m, bd_hdrs x2 = Some m -> view s m = None) /\
    (forall m Y, view s m = Some Y -> view s' m = Some Y).
Proof.
  intros s b x X s' b2 Hs Hb HX H. cbn [texec rdo] in H. ystep H. destruct a as [b2' err]. injection H as -> -> ->. unfold bd_Copy in E. ystep E.
  unfold the_bd in E0. rewrite Hb in E0. injection E0 as <- <-. ystep E. destruct a as [i2 err]. pose proof (copyBody_still _ _ _ _ E0) as (M1 & A1 & B1 & R1).
  destruct err; [done|]. ystep E.
  assert (Hs0 : swf s0) by (unfold swf; by rewrite M1, A1).
  assert (HX0 : hview s0 (bd_hdrs x) = Some X). { destruct (bd_hdrs x) as [m|]; [|done]. cbn in *. unfold view in *. by rewrite M1, A1. }
  assert (V0 : forall m, view s0 m = view s m) by (intros m; unfold view; by rewrite M1, A1).
  pose proof (copyHeaders_one _ _ _ _ E1) as Hone.
  destruct (copyHeaders_view s0 (bd_hdrs x) X Hs0 HX0) as (s1' & o' & Hrun & Hv & Hs1 & (Rh & Rb & Rr & _) & (la & Hla) & (lm & Hlm) & Hkeep & Hfresh).
  rewrite Hrun in E1. injection E1 as <- <-. ystep E. unfold make_bd in E1. injection E1 as <- <-. injection E as <- <-.
  eexists. split; [by rewrite Rb, B1|]. cbn. split; [by rewrite Rb, B1|]. split; [by rewrite Rr, R1|]. do 3 (split; [done|]). split.
  { unfold copyBody in E0. destruct (bd_body x) as [i|]; [|injection E0 as _ <-; by left]. right. apply ybind_ret in E0 as (s9 & a & E9 & E0). unfold body_cmd in E9.
    destruct (uexec _ _ _ _) as [h o] eqn:Hx. injection E9 as <- ->. destruct a; try done. injection E0 as <- <- ->. apply uexec_ret in Hx. exists i. eexists. split; [done|]. split; [done|]. by rewrite Rh. }
  split; [by destruct o'|]. split; [exact (fresh_apart s0 s1' o' Hs0 Hone Hfresh)|]. split.
  - intros m Hm. destruct (Hfresh m Hm) as [-> _]. rewrite <- V0. unfold view. unfold mid in *. by rewrite lookup_ge_None_2.
  - intros m Y HY. apply Hkeep. by rewrite V0.
Qed.
Theorem copy_builder : forall s b x X s' b2,
  treaches U fuel s -> s_bds s !! b = Some x -> hview s (bd_hdrs x) = Some X ->
  texec U fuel (TDo (RCopyBuilder b)) s = (s', ORet (YNew (Some b2) None)) ->
  exists x2, b2 = length (s_bds s) /\ s_bds s' = s_bds s ++ [x2] /\ s_rps s' = s_rps s /\
    bd_gen x2 = bd_gen x /\ bd_code x2 = bd_code x /\ bd_err x2 = bd_err x /\
    (bd_body x = None /\ bd_body x2 = None \/
     exists i j, bd_body x = Some i /\ bd_body x2 = Some j /\ exec (wenv U) fuel (s_h s) (Call i Copy) = (s_h s', ORet (RBody j None))) /\
    hview s' (bd_hdrs x2) = Some X /\ apart s' (bd_hdrs x2) /\
    (forall m, bd_hdrs x2 = Some m -> view s m = None) /\
    (forall m Y, view s m = Some Y -> view s' m = Some Y).
Proof. intros s b x X s' b2 Hs%treaches_swf. by apply copy_builder_swf. Qed.
(** Whatever is then done with the copy, and with objects made later, changes
    nothing that existed before. *)
Theorem copy_leaves_original : forall s b x X s' b2 cs s2 os,
  treaches U fuel s -> s_bds s !! b = Some x -> hview s (bd_hdrs x) = Some X -> returns_only U (fun m => (length (s_maps s) <= m)%nat) (bd_gen x) ->
  texec U fuel (TDo (RCopyBuilder b)) s = (s', ORet (YNew (Some b2) None)) ->
  Forall (keeps_to U (fun b' => (b2 <= b')%nat) (fun m => (length (s_maps s) <= m)%nat)) cs ->
  thistory U fuel s' (map TDo cs) = (s2, os) ->
  s_bds s2 !! b = Some x /\ hview s2 (bd_hdrs x) = Some X /\
  (forall b' y, s_bds s !! b' = Some y -> s_bds s2 !! b' = Some y) /\ (forall m Y, view s m = Some Y -> view s2 m = Some Y).
Proof.
  intros s b x X s' b2 cs s2 os Hs Hb HX Hg H Hcs Hcs2.
  destruct (copy_builder s b x X s' b2 Hs Hb HX H) as (x2 & -> & Hbd & Hr & Hg2 & _ & _ & _ & Hv2 & Hap & Hnew & Hkeep).
  apply treaches_swf in Hs. cbn [texec rdo] in H. ystep H. destruct a as [b2' err]. injection H as -> -> ->. unfold bd_Copy in E. ystep E.
  unfold the_bd in E0. rewrite Hb in E0. injection E0 as <- <-. ystep E. destruct a as [i2 err]. pose proof (copyBody_still _ _ _ _ E0) as (M1 & A1 & B1 & R1).
  destruct err; [done|]. ystep E.
  assert (Hs0 : swf s0) by (unfold swf; by rewrite M1, A1).
  assert (HX0 : hview s0 (bd_hdrs x) = Some X). { destruct (bd_hdrs x) as [m|]; [|done]. cbn in *. unfold view in *. by rewrite M1, A1. }
  pose proof (copyHeaders_one _ _ _ _ E1) as (l1 & Hl1 & Hlen).
  destruct (copyHeaders_view s0 (bd_hdrs x) X Hs0 HX0) as (s1' & o' & Hrun & Hv & Hs1 & (Rh & Rb & Rr & _) & (la & Hla) & _ & _ & Hfresh).
  rewrite Hrun in E1. injection E1 as <- <-. ystep E. unfold make_bd in E1. injection E1 as <- <-. injection E as <- _.
  cbn in Hbd. rewrite Rb, B1 in Hbd. apply app_inj_1 in Hbd as [_ Hbd]; [|done]. injection Hbd as <-. clear Hv2. rename Hg2 into Hg2'.
  pose proof (fun A B C D E F => new_only s _ _ cs s2 os A B C D E F Hcs Hcs2) as N. destruct N as (H1 & H2 & H3).
  - cbn. rewrite Hla, A1, app_length. lia.
  - cbn. rewrite Hl1, M1, app_length. lia.
  - intros m key a Hm Ha. unfold array_of in Ha. cbn in Ha. unfold mid in *. destruct (s_maps s1' !! m) as [z|] eqn:Hz; [|done]. pose proof (lookup_lt_Some _ _ _ Hz) as Hlt.
    rewrite Hl1, M1, app_length in Hlt. assert (m = length (s_maps s)) as -> by lia.
    destruct o' as [m|].
    + destruct (Hfresh m eq_refl) as [-> Hf]. rewrite <- A1. apply (Hf key). unfold array_of. unfold mid in *. rewrite M1. by rewrite Hz.
    + exfalso. rewrite (copyHeaders_none _ _ _ Hrun), M1 in Hz. by rewrite lookup_ge_None_2 in Hz.
  - cbn. rewrite Rb, B1. intros b' y Hb' [Hy|[_ [_ <-]%list_lookup_singleton_Some]]%lookup_app_Some.
    + apply lookup_lt_Some in Hy. lia.
    + split; [done|]. cbn. intros m Hm. destruct (Hfresh m Hm) as [-> _]. by rewrite M1.
  - cbn. rewrite Rb, B1, app_length. cbn. intros; lia.
  - intros m key a Hm Ha. eapply (array_old s _ m key a Hs); [|done|exact Ha]. exists l1. cbn. by rewrite Hl1, M1.
  - assert (Hbds : forall b' y, s_bds s !! b' = Some y -> s_bds s2 !! b' = Some y).
    { intros b' y Hy. rewrite H2; [|apply lookup_lt_Some in Hy; lia]. cbn. rewrite Rb, B1. by apply lookup_app_l_Some. }
    assert (Hvs : forall m Y, view s m = Some Y -> view s2 m = Some Y).
    { intros m Y HY. apply H1; [by eapply view_lt|]. by apply Hkeep. }
    split; [by apply Hbds|]. split; [destruct (bd_hdrs x); [by apply Hvs|done]|]. done.
Qed.

(** ** WithHeaders *)
Lemma with_headers_run s b x h X :
  swf s -> s_bds s !! b = Some x -> hview s h = Some X ->
  exists s1 m, copyHeaders h s = (s1, ORet m) /\ texec U fuel (TDo (RBuilder b (WithHeaders h))) s = (put_bds s1 (<[b := bd_set_hdrs x m]> (s_bds s1)), ORet YUnit).
Proof.
  intros Hs Hb HX. destruct (copyHeaders_view s h X Hs HX) as (s1 & m & Hrun & _ & _ & (_ & Rb & _ & _) & _).
  exists s1, m. split; [done|]. cbn [texec rdo bd_do]. unfold ybind at 1, bd_WithHeaders. unfold ybind at 1, the_bd. rewrite Hb. unfold ybind. rewrite Hrun. done.
Qed.
Lemma with_headers_swf : forall s b x h X,
  swf s -> s_bds s !! b = Some x -> hview s h = Some X ->
  exists s' m, texec U fuel (TDo (RBuilder b (WithHeaders h))) s = (s', ORet YUnit) /\
    s_bds s' = <[b := {| bd_gen := bd_gen x; bd_code := bd_code x; bd_hdrs := m; bd_body := bd_body x; bd_err := bd_err x |}]> (s_bds s) /\
    s_rps s' = s_rps s /\ s_h s' = s_h s /\
    hview s' m = Some X /\ apart s' m /\ (forall m', m = Some m' -> view s m' = None) /\ (forall m' Y, view s m' = Some Y -> view s' m' = Some Y).
Proof.
  intros s b x h X Hs Hb HX. destruct (with_headers_run s b x h X Hs Hb HX) as (s1 & m & Hrun & H).
  pose proof (copyHeaders_one _ _ _ _ Hrun) as Hone.
  destruct (copyHeaders_view s h X Hs HX) as (s1' & m' & Hrun' & Hv & _ & (Rh & Rb & Rr & _) & _ & _ & Hkeep & Hfresh).
  rewrite Hrun in Hrun'. injection Hrun' as <- <-. eexists _, m. split; [exact H|]. cbn. split; [by rewrite Rb|]. split; [done|]. split; [done|].
  split; [by destruct m|]. split; [exact (fresh_apart s s1 m Hs Hone Hfresh)|]. split; [|exact Hkeep].
  intros m0 Hm. destruct (Hfresh m0 Hm) as [-> _]. unfold view. unfold mid in *. by rewrite lookup_ge_None_2.
Qed.
Theorem with_headers : forall s b x h X,
  treaches U fuel s -> s_bds s !! b = Some x -> hview s h = Some X ->
  exists s' m, texec U fuel (TDo (RBuilder b (WithHeaders h))) s = (s', ORet YUnit) /\
    s_bds s' = <[b := {| bd_gen := bd_gen x; bd_code := bd_code x; bd_hdrs := m; bd_body := bd_body x; bd_err := bd_err x |}]> (s_bds s) /\
    s_rps s' = s_rps s /\ s_h s' = s_h s /\
    hview s' m = Some X /\ apart s' m /\ (forall m', m = Some m' -> view s m' = None) /\ (forall m' Y, view s m' = Some Y -> view s' m' = Some Y).
Proof. intros s b x h X Hs%treaches_swf. by apply with_headers_swf. Qed.
Theorem with_headers_leaves : forall s b x h X s' cs s2 os,
  treaches U fuel s -> s_bds s !! b = Some x -> hview s h = Some X -> returns_only U (fun m => (length (s_maps s) <= m)%nat) (bd_gen x) ->
  texec U fuel (TDo (RBuilder b (WithHeaders h))) s = (s', ORet YUnit) ->
  Forall (keeps_to U (fun b' => b' = b \/ (length (s_bds s) <= b')%nat) (fun m => (length (s_maps s) <= m)%nat)) cs ->
  thistory U fuel s' (map TDo cs) = (s2, os) ->
  hview s2 h = Some X /\ (forall m Y, view s m = Some Y -> view s2 m = Some Y).
Proof.
  intros s b x h X s' cs s2 os Hs%treaches_swf Hb HX Hg H Hcs Hcs2. destruct (with_headers_run s b x h X Hs Hb HX) as (s1 & o' & Hrun & H').
  rewrite H in H'. injection H' as ->. pose proof (copyHeaders_one _ _ _ _ Hrun) as (l1 & Hl1 & Hlen).
  destruct (copyHeaders_view s h X Hs HX) as (s1' & m' & Hrun' & Hv & _ & (Rh & Rb & Rr & _) & (la & Hla) & _ & Hkeep & Hfresh).
  rewrite Hrun in Hrun'. injection Hrun' as <- <-.
  pose proof (fun A B C D E F => new_only s _ _ cs s2 os A B C D E F Hcs Hcs2) as N. destruct N as (H1 & _ & _).
  - cbn. rewrite Hla, app_length. lia.
  - cbn. rewrite Hl1, app_length. lia.
  - intros m key a Hm Ha. unfold array_of in Ha. cbn in Ha. unfold mid in *. destruct (s_maps s1 !! m) as [z|] eqn:Hz; [|done]. pose proof (lookup_lt_Some _ _ _ Hz) as Hlt.
    rewrite Hl1, app_length in Hlt. assert (m = length (s_maps s)) as -> by lia.
    destruct o' as [m|].
    + destruct (Hfresh m eq_refl) as [-> Hf]. apply (Hf key). unfold array_of. unfold mid in *. by rewrite Hz.
    + exfalso. rewrite (copyHeaders_none _ _ _ Hrun) in Hz. by rewrite lookup_ge_None_2 in Hz.
  - cbn. rewrite Rb. intros b' y Hb' [(_ & <- & _)|[Hne Hy]]%list_lookup_insert_Some.
    + split; [done|]. cbn. intros m Hm. destruct (Hfresh m Hm) as [-> _]. done.
    + destruct Hb' as [->|Hb']; [done|]. apply lookup_lt_Some in Hy. lia.
  - cbn. rewrite Rb, insert_length. intros; by right.
  - intros m key a Hm Ha. eapply (array_old s _ m key a Hs); [|done|exact Ha]. exists l1. done.
  - assert (Hvs : forall m Y, view s m = Some Y -> view s2 m = Some Y). { intros m Y HY. apply H1; [by eapply view_lt|]. by apply Hkeep. }
    split; [|done]. destruct h; [by apply Hvs|done].
Qed.

(** ** Programs that make no entries share an array *)
Theorem tidy_owned : forall v n maps arrs cs s os,
  sound_maps arrs maps -> distinct (tinitial v n maps arrs) -> Forall tidy cs ->
  thistory U fuel (tinitial v n maps arrs) (map TDo cs) = (s, os) ->
  (forall b x, s_bds s !! b = Some x ->
     bd_gen x = None /\ (exists X, hview s (bd_hdrs x) = Some X) /\ apart s (bd_hdrs x) /\ forall b', b' <> b -> leaves_alone U s (bd_hdrs x) b') /\
  (forall r y, s_rps s !! r = Some y ->
     (exists X, hview s (rp_hdrs y) = Some X) /\ apart s (rp_hdrs y) /\ forall b, leaves_alone U s (rp_hdrs y) b).
Proof.
  intros v n maps arrs cs s os Hsound Hd Hcs H. pose proof (TidyProofs.t_history U fuel (tinitial v n maps arrs) cs Hcs) as HT. rewrite H in HT. cbn in HT.
  assert (H0 : TidyProofs.T (tinitial v n maps arrs)).
  { split; try done. intros m key a Ha. by eapply swf_array in Ha. }
  apply HT in H0 as [H1 H2 H3 H4 H5 H6 H7].
  assert (Hap : forall o, apart s o). { intros o m0 m' key key' a -> Hne Ha Ha'. destruct (H2 _ _ _ _ _ Ha Ha'). done. }
  split.
  - intros b x Hb. split; [by eapply H3|]. split; [|split; [apply Hap|]].
    + destruct (bd_hdrs x) as [m|] eqn:Hm; [|by exists ∅]. by apply view_lt2, (H4 b x).
    + intros b' Hne y Hy. split; [rewrite (H3 _ _ Hy); by intros ?|]. destruct (bd_hdrs x) as [m|] eqn:Hm; [|by left]. right. intros Hm'. apply Hne. by eapply H6.
  - intros r y Hr. split; [|split; [apply Hap|]].
    + destruct (rp_hdrs y) as [m|] eqn:Hm; [|by exists ∅]. by apply view_lt2, (H5 r y).
    + intros b x Hx. split; [rewrite (H3 _ _ Hx); by intros ?|]. destruct (rp_hdrs y) as [m|] eqn:Hm; [|by left]. right. intros Hm'. by eapply H7.
Qed.
Lemma keeps_weaken (bs bs' ms : nat -> Prop) c : (forall b, bs b -> bs' b) -> keeps_to U bs ms c -> keeps_to U bs' ms c.
Proof. intros H. destruct c; cbn; auto. destruct f; auto. intros [? ?]; auto. Qed.
Lemma tidy_reaches v n maps arrs cs s os : sound_maps arrs maps -> thistory U fuel (tinitial v n maps arrs) (map TDo cs) = (s, os) -> treaches U fuel s.
Proof. intros H1 H2. by exists v, n, maps, arrs, (map TDo cs), os. Qed.
(** At any point of such a program, a Builder and its header change only through
    calls on this Builder and writes to this header. *)
Theorem tidy_builder : forall v n maps arrs cs s os b x X cs2 s2 os2,
  sound_maps arrs maps -> distinct (tinitial v n maps arrs) -> Forall tidy cs ->
  thistory U fuel (tinitial v n maps arrs) (map TDo cs) = (s, os) ->
  s_bds s !! b = Some x -> hview s (bd_hdrs x) = Some X ->
  Forall (keeps_to U (fun b' => b' <> b) (fun m => bd_hdrs x <> Some m)) cs2 -> thistory U fuel s (map TDo cs2) = (s2, os2) ->
  s_bds s2 !! b = Some x /\ hview s2 (bd_hdrs x) = Some X.
Proof.
  intros v n maps arrs cs s os b x X cs2 s2 os2 Hsound Hd Hcs H Hb HX Hcs2 H2.
  destruct (tidy_owned v n maps arrs cs s os Hsound Hd Hcs H) as [Hown _]. destruct (Hown b x Hb) as (_ & _ & Hap & Hl).
  eapply (builder_untouched s b x X cs2); [by eapply tidy_reaches|done|done|done| |done].
  eapply Forall_impl; [exact Hcs2|]. intros c. apply keeps_weaken. auto.
Qed.
(** So does a Response; no call on a Builder reaches its header. *)
Theorem tidy_response : forall v n maps arrs cs s os r y X cs2 s2 os2,
  sound_maps arrs maps -> distinct (tinitial v n maps arrs) -> Forall tidy cs ->
  thistory U fuel (tinitial v n maps arrs) (map TDo cs) = (s, os) ->
  s_rps s !! r = Some y -> hview s (rp_hdrs y) = Some X ->
  Forall (keeps_to U (fun _ => True) (fun m => rp_hdrs y <> Some m)) cs2 -> thistory U fuel s (map TDo cs2) = (s2, os2) ->
  s_rps s2 !! r = Some y /\ hview s2 (rp_hdrs y) = Some X.
Proof.
  intros v n maps arrs cs s os r y X cs2 s2 os2 Hsound Hd Hcs H Hr HX Hcs2 H2.
  destruct (tidy_owned v n maps arrs cs s os Hsound Hd Hcs H) as [_ Hown]. destruct (Hown r y Hr) as (_ & Hap & Hl).
  eapply (response_untouched s r y X cs2); [by eapply tidy_reaches|done|done|done| |done].
  eapply Forall_impl; [exact Hcs2|]. intros c. apply keeps_weaken. auto.
Qed.
End Own.
