(** * Builders and Responses behave as values, whatever else the program does *)
From stdpp Require Import gmap.
From Coq Require Import ZifyBool.
From Verif Require Import ValueSpec RespFacts HdrFacts ViewFacts PlainProofs RegionProofs BuilderMain OwnMain Template.

Section Value.
Context {V : Type} (U : uenv V) (fuel n0 : nat).
Hypothesis HU : clients_among U n0.
Implicit Types s : state V.
Notation T := (T n0).

(** ** Serve and the Adaptor *)
(** The header maps of the clients may change, and get slices of Responses. *)
Definition from_clients s (a : nat) : Prop :=
  exists m key, array_of s m key = Some a /\ ((m < n0)%nat \/ exists (r : nat) y, s_rps s !! r = Some y /\ rp_hdrs y = Some m).
Definition qR s s' : Prop :=
  s_bds s' = s_bds s /\ s_rps s' = s_rps s /\ s_arrs s' = s_arrs s /\ length (s_maps s') = length (s_maps s) /\
  (forall m : mid, (n0 <= m)%nat -> s_maps s' !! m = s_maps s !! m) /\
  forall m key a, (m < n0)%nat -> array_of s' m key = Some a -> from_clients s a.
Lemma still_q s s' : s_maps s' = s_maps s -> s_arrs s' = s_arrs s -> s_bds s' = s_bds s -> s_rps s' = s_rps s -> qR s s'.
Proof.
  intros E1 E2 E3 E4. unfold qR. rewrite E1, E2, E3, E4. do 5 (split; [done|]). intros m key a Hm Ha. exists m, key. split; [|by left].
  unfold array_of in *. by rewrite E1 in Ha.
Qed.
Global Instance qR_refl : Reflexive qR.
Proof. intros s. by apply still_q. Qed.
Lemma q_from s s' a : qR s s' -> from_clients s' a -> from_clients s a.
Proof.
  intros (_ & A2 & _ & _ & A5 & A6) (m & key & Ha & Hm). destruct (decide (m < n0)%nat) as [L|L]; [by eapply A6|].
  exists m, key. rewrite <- A2. split; [|done]. unfold array_of in *. rewrite <- (A5 m); [done|lia].
Qed.
Global Instance qR_trans : Transitive qR.
Proof.
  intros s1 s2 s3 A B. pose proof A as (A1 & A2 & A3 & A4 & A5 & A6). pose proof B as (B1 & B2 & B3 & B4 & B5 & B6).
  split; [congruence|]. split; [congruence|]. split; [congruence|]. split; [congruence|]. split; [intros m Hm; rewrite B5, A5; done|].
  intros m key a Hm Ha. eapply q_from; [exact A|]. by eapply B6.
Qed.
Notation qok := (pres qR).
Lemma q_T s s' : qR s s' -> T s -> T s'.
Proof.
  intros H HT. pose proof H as (A1 & A2 & A3 & A4 & A5 & A6). eapply T_arrays; [exact HT|done|done|lia|].
  intros m key a Ha. rewrite A3. destruct (decide (m < n0)%nat) as [L|L].
  - destruct (A6 m key a L Ha) as (m2 & key2 & B & C). split; [by eapply (t_lt _ _ HT)|]. right; right. split; [done|]. by exists m2, key2.
  - assert (B : array_of s m key = Some a). { unfold array_of in *. by rewrite <- (A5 m) by lia. } split; [by eapply (t_lt _ _ HT)|by left].
Qed.
Lemma q_view s s' m : qR s s' -> (n0 <= m)%nat -> view s' m = view s m.
Proof. intros (_ & _ & A3 & _ & A5 & _) Hm. unfold view. by rewrite A5, A3. Qed.

Lemma q_still {A} (m : M (V:=V) A) : (forall s, s_maps (m s).1 = s_maps s /\ s_arrs (m s).1 = s_arrs s /\ s_bds (m s).1 = s_bds s /\ s_rps (m s).1 = s_rps s) -> qok m.
Proof. intros H s. destruct (H s) as (? & ? & ? & ?). by apply still_q. Qed.
Lemma q_writer {A} (m : wm A) : qok (on_writer m).
Proof. apply q_still. intros s. unfold on_writer. by destruct (m _). Qed.
Lemma q_outside {A} (m : V -> V * (A + panic)) : qok (outside m).
Proof. apply q_still. intros s. unfold outside. by destruct (m _). Qed.
Lemma q_call b f : qok (body_call U fuel b f).
Proof. apply q_still. intros s. apply body_call_still. Qed.
Lemma q_met x : qok (met x). Proof. by apply q_still. Qed.
Lemma q_log_u e : qok (log_u e). Proof. by apply q_still. Qed.
Lemma q_lookup_wrap k : qok (lookup_wrap k). Proof. unfold lookup_wrap. pres_go. Qed.
Lemma q_NewWriter k b : qok (NewWriter U k b).
Proof. apply q_still. intros s. unfold NewWriter. destruct k as [k|]; [|done]. destruct (_ !! _) as [[]|]; done. Qed.
Local Hint Resolve q_writer q_outside q_call q_met q_log_u q_lookup_wrap q_NewWriter : pres.
Lemma q_readfrom_loop n u b last : qok (readfrom_loop U fuel n u b last).
Proof.
  revert last. induction n as [|n IH]; intros last; cbn [readfrom_loop]; [pres_go|]. intros s. cbv zeta.
  destruct (u_readfrom _ _ _ _) as [v [f|ans]]; cbn; [|by apply still_q]. set (s1 := put_h s _). assert (Hs1 : qR s s1) by (by apply still_q). etrans; [exact Hs1|].
  pose proof (q_call b f s1) as H. destruct (body_call U fuel b f s1) as [s2 [r|e|]]; cbn in H; [etrans; [exact H|apply IH]..|done].
Qed.
Local Hint Resolve q_readfrom_loop : pres.
Lemma q_raw_ReadFrom by_ u b : qok (raw_ReadFrom U fuel by_ u b).
Proof. unfold raw_ReadFrom. pres_go. Qed.
Lemma q_discard_loop n b buf t : qok (discard_loop U fuel n b buf t).
Proof. revert buf t. induction n as [|n IH]; intros buf t; cbn [discard_loop]; cbv zeta; pres_go; apply IH. Qed.
Lemma q_copy_loop n k b buf t : qok (copy_loop U fuel n k b buf t).
Proof.
  revert buf t. induction n as [|n IH]; intros buf t; cbn [copy_loop]; cbv zeta; [pres_go|].
  assert (Hs : forall (p : bytes) z, qok (fun s : state V => match slice p 0 z with Some p => (s, ORet p) | None => (s, OPanic PRange) end)).
  { intros p z s. destruct (slice _ _ _); reflexivity. }
  pres_go; apply IH.
Qed.
Lemma q_write_to k b : qok (write_to U fuel k b).
Proof. unfold write_to. apply q_still. intros s. unfold ybind, of_opt. destruct b; [|done]. cbn. unfold body_cmd. by repeat case_match; simplify_eq/=. Qed.
Local Hint Resolve q_raw_ReadFrom q_discard_loop q_copy_loop q_write_to : pres.
Lemma q_copy_discard b : qok (copy_discard U fuel b).
Proof. unfold copy_discard. pres_go. Qed.
Local Hint Resolve q_copy_discard : pres.
Lemma q_wrap_ReadFrom k b : qok (wrap_ReadFrom U fuel k b).
Proof. unfold wrap_ReadFrom. pres_go. Qed.
Local Hint Resolve q_wrap_ReadFrom : pres.
Lemma q_any_ReadFrom k b : qok (any_ReadFrom U fuel k b).
Proof. unfold any_ReadFrom. pres_go. Qed.
Local Hint Resolve q_any_ReadFrom : pres.
Lemma q_io_Copy k b : qok (io_Copy U fuel k b).
Proof. unfold io_Copy. pres_go. Qed.
Lemma q_any_WriteHeader k st : qok (any_WriteHeader U k st).
Proof. unfold any_WriteHeader. pres_go. Qed.
Lemma q_any_Push k url : qok (any_Push U k url).
Proof. unfold any_Push. pres_go. Qed.
Local Hint Resolve q_io_Copy q_any_WriteHeader q_any_Push : pres.
Lemma q_push_all k l : qok (push_all U k l).
Proof. induction l; cbn [push_all]; pres_go. Qed.
Local Hint Resolve q_push_all : pres.
Lemma q_mets l : qok (mets l).
Proof. induction l; cbn [mets]; pres_go. Qed.
Local Hint Resolve q_mets : pres.
Lemma q_defer ww pv : qok (adaptor_defer U ww pv).
Proof. unfold adaptor_defer. cbv zeta. pres_go. Qed.
(** A Response of the program, or the zero Response. *)
Definition known s (y : response) : Prop := y = zero_response \/ exists r : nat, s_rps s !! r = Some y.
Lemma q_known s s' y : qR s s' -> known s y -> known s' y.
Proof. intros (_ & E & _). unfold known. by rewrite E. Qed.
Lemma q_copy_to s (m : mid) o hdrs : (m < n0)%nat -> (forall m0, o = Some m0 -> exists (r : nat) y, s_rps s !! r = Some y /\ rp_hdrs y = Some m0) ->
  (map_or_nil o s).2 = ORet hdrs -> qR s (copy_to m hdrs s).1.
Proof.
  intros Hm Ho Hh. unfold copy_to. cbv zeta. destruct (bool_decide _); [by apply still_q|]. unfold ybind, the_map. destruct (s_maps s !! m) as [dst|] eqn:Hd; [|by apply still_q].
  cbn. split; [done|]. split; [done|]. split; [done|]. split; [cbn; by rewrite insert_length|]. split.
  { intros m' Hm'. cbn. apply list_lookup_insert_ne. unfold mid in *. lia. }
  intros m' key a Hlt. rewrite array_put. destruct (decide _) as [[-> _]|D]; [|intros Ha; exists m', key; split; [done|by left]].
  destruct ((delete headerPush hdrs ∪ dst) !! key) as [v|] eqn:Hv; [|done]. intros Ha. apply lookup_union_Some_raw in Hv as [[_ Hv]%lookup_delete_Some|[_ Hv]].
  - unfold map_or_nil, the_map in Hh. destruct o as [m0|]; [|injection Hh as <-; by rewrite lookup_empty in Hv].
    destruct (s_maps s !! m0) as [x|] eqn:Hx; [|done]. injection Hh as <-. exists m0, key. split; [|right; by apply Ho].
    unfold array_of. by rewrite Hx, Hv.
  - exists m, key. split; [|by left]. unfold array_of. by rewrite Hd, Hv.
Qed.
Lemma q_bind {A B} (m : M (V:=V) A) (k : A -> M B) s : qR s (m s).1 -> (forall a s1, m s = (s1, ORet a) -> qR s1 (k a s1).1) -> qR s (ybind m k s).1.
Proof. intros H1 H2. unfold ybind. destruct (m s) as [s1 [a|e|]]; cbn in *; [|done|done]. etrans; [exact H1|]. by apply H2. Qed.
Lemma q_rp_Serve s y k : known s y -> qR s (rp_Serve U fuel y k s).1.
Proof.
  intros Hy. unfold rp_Serve. apply q_bind. { enough (qok (lookup_w (V:=V) k)) by auto. pres_go. } intros o s1 E1.
  assert (Hy1 : known s1 y). { unfold lookup_w in E1. destruct (_ !! _); by simplify_eq. } clear E1 Hy s.
  apply q_bind. { match goal with |- qR s1 (?m s1).1 => enough (qok m) by auto end. pres_go. } intros perr s2 E2.
  assert (Hy2 : known s2 y). { eapply q_known; [|exact Hy1]. match type of E2 with ?m s1 = _ => assert (H : qR s1 (m s1).1); [|by rewrite E2 in H] end.
    match goal with |- qR s1 (?m s1).1 => enough (qok m) by auto end. pres_go. } clear E2 Hy1 s1.
  destruct perr as [e|]; [reflexivity|].
  apply q_bind. { unfold any_Header. by destruct (_ !! _) as [[]|]. } intros h s3 E3. assert (Hh : (h < n0)%nat /\ s3 = s2).
  { unfold any_Header in E3. destruct (_ !! _) as [[]|]; simplify_eq; split; try done; apply HU. } destruct Hh as [Hh ->]. clear E3.
  apply q_bind. { match goal with |- qR s2 (?m s2).1 => enough (qok m) by auto end. pres_go. } intros hdrs s4 E4.
  assert (s4 = s2) as ->. { unfold map_or_nil, the_map in E4. destruct (rp_hdrs y); [|by injection E4]. destruct (_ !! _); by injection E4. }
  apply q_bind.
  - eapply (q_copy_to _ _ (rp_hdrs y)); [done| |by rewrite E4]. intros m0 Hm0. destruct Hy2 as [->|[r Hr]]; [done|by exists r, y].
  - intros [] s5 _. match goal with |- qR s5 (?m s5).1 => enough (qok m) by auto end. pres_go.
Qed.

(** ** One call *)
(** What is promised about Builder [bo], if any, and all Responses. *)
Definition same s s' : Prop := forall r y X, s_rps s !! r = Some y -> hview s (rp_hdrs y) = Some X -> s_rps s' !! r = Some y /\ hview s' (rp_hdrs y) = Some X.
Definition same_bd (bo : option nat) s s' : Prop :=
  forall b x X, bo = Some b -> s_bds s !! b = Some x -> hview s (bd_hdrs x) = Some X -> s_bds s' !! b = Some x /\ hview s' (bd_hdrs x) = Some X.
Definition good s : Prop := T s /\ swf s.
Definition wR bo s s' : Prop := good s -> good s' /\ same s s' /\ same_bd bo s s'.
Global Instance wR_refl bo : Reflexive (wR bo).
Proof. intros s H. split; [done|]. split; [by intros r y X|by intros b x X]. Qed.
Global Instance wR_trans bo : Transitive (wR bo).
Proof.
  intros s1 s2 s3 A B H. destruct (A H) as (A1 & A2 & A3). destruct (B A1) as (B1 & B2 & B3). split; [done|]. split.
  - intros r y X H1 H2. destruct (A2 r y X H1 H2). by apply B2.
  - intros b x X H0 H1 H2. destruct (A3 b x X H0 H1 H2). by apply B3.
Qed.
Lemma good_view_bd s b x : good s -> s_bds s !! b = Some x -> exists X, hview s (bd_hdrs x) = Some X.
Proof.
  intros [HT _] Hb. destruct (bd_hdrs x) as [m|] eqn:Hm; [|by eexists]. destruct (t_bd _ _ HT b x m Hb Hm) as [_ Hlt].
  apply lookup_lt_is_Some in Hlt as [y Hy]. cbn. unfold view, mid in *. rewrite Hy. eauto.
Qed.
Lemma good_view_rp s r y : good s -> s_rps s !! r = Some y -> exists X, hview s (rp_hdrs y) = Some X.
Proof.
  intros [HT _] Hb. destruct (rp_hdrs y) as [m|] eqn:Hm; [|by eexists]. destruct (t_rp _ _ HT r y m Hb Hm) as [_ Hlt].
  apply lookup_lt_is_Some in Hlt as [z Hz]. cbn. unfold view, mid in *. rewrite Hz. eauto.
Qed.
(** All maps of Builders and Responses look the same, and they are the same. *)
Lemma w_of bo s s' : (good s -> good s') ->
  (good s -> forall r y, s_rps s !! r = Some y -> s_rps s' !! r = Some y /\ forall m, rp_hdrs y = Some m -> view s' m = view s m) ->
  (good s -> forall b x, bo = Some b -> s_bds s !! b = Some x -> s_bds s' !! b = Some x /\ forall m, bd_hdrs x = Some m -> view s' m = view s m) ->
  wR bo s s'.
Proof.
  intros Hg Hr Hb H. split; [auto|]. split.
  - intros r y X H1 H2. destruct (Hr H r y H1) as [H3 H4]. split; [done|]. destruct (rp_hdrs y); [|done]. cbn in *. by rewrite H4.
  - intros b x X H0 H1 H2. destruct (Hb H b x H0 H1) as [H3 H4]. split; [done|]. destruct (bd_hdrs x); [|done]. cbn in *. by rewrite H4.
Qed.
Lemma w_q bo s s' : (swf s -> swf s') -> qR s s' -> wR bo s s'.
Proof.
  intros Hs Hq. pose proof Hq as (A1 & A2 & _). apply w_of.
  - intros [HT Hw]. split; [by eapply q_T|auto].
  - intros [HT _] r y Hr. rewrite A2. split; [done|]. intros m Hm. eapply q_view; [done|]. by eapply (t_rp _ _ HT).
  - intros [HT _] b x _ Hb. rewrite A1. split; [done|]. intros m Hm. eapply q_view; [done|]. by eapply (t_bd _ _ HT).
Qed.
(** New objects only. *)
Definition aR s s' : Prop := (exists l, s_maps s' = s_maps s ++ l) /\ (exists l, s_arrs s' = s_arrs s ++ l) /\ (exists l, s_bds s' = s_bds s ++ l) /\ exists l, s_rps s' = s_rps s ++ l.
Global Instance aR_refl : Reflexive aR.
Proof. intros s. by repeat split; exists []; rewrite app_nil_r. Qed.
Global Instance aR_trans : Transitive aR.
Proof.
  intros s1 s2 s3 ([a1 A1] & [a2 A2] & [a3 A3] & [a4 A4]) ([b1 B1] & [b2 B2] & [b3 B3] & [b4 B4]).
  repeat split; [exists (a1 ++ b1)|exists (a2 ++ b2)|exists (a3 ++ b3)|exists (a4 ++ b4)]; rewrite app_assoc; congruence.
Qed.
Notation aok := (pres aR).
Lemma a_view s s' m : swf s -> aR s s' -> (m < length (s_maps s))%nat -> view s' m = view s m.
Proof.
  intros Hs ([l1 H1] & [l2 H2] & _) Hm. unfold view. unfold mid in *. rewrite H1, H2, lookup_app_l by done. destruct (s_maps s !! m) as [x|] eqn:Hx; [|done]. f_equal.
  apply fmap_app. by eapply Hs.
Qed.
Lemma w_a bo s s' : (good s -> good s') -> aR s s' -> wR bo s s'.
Proof.
  intros Hg Ha. pose proof Ha as (_ & _ & [l3 H3] & [l4 H4]). apply w_of; [done|..].
  - intros [HT Hs] r y Hr. rewrite H4. split; [by apply lookup_app_l_Some|]. intros m Hm. apply a_view; [done|done|]. by eapply (t_rp _ _ HT).
  - intros [HT Hs] b x _ Hb. rewrite H3. split; [by apply lookup_app_l_Some|]. intros m Hm. apply a_view; [done|done|]. by eapply (t_bd _ _ HT).
Qed.
Lemma a_still {A} (m : M (V:=V) A) : (forall s, s_maps (m s).1 = s_maps s /\ s_arrs (m s).1 = s_arrs s /\ s_bds (m s).1 = s_bds s /\ s_rps (m s).1 = s_rps s) -> aok m.
Proof. intros H s. destruct (H s) as (E1 & E2 & E3 & E4). unfold aR. rewrite E1, E2, E3, E4. by repeat split; exists []; rewrite app_nil_r. Qed.
Lemma a_make_map x : aok (make_map x).
Proof. intros s. repeat split; cbn; [by eexists|by exists []; rewrite app_nil_r..]. Qed.
Lemma a_make_bd x : aok (make_bd x).
Proof. intros s. repeat split; cbn; [by exists []; rewrite app_nil_r..|by eexists|by exists []; rewrite app_nil_r]. Qed.
Lemma a_make_rp x : aok (make_rp x).
Proof. intros s. repeat split; cbn; [by exists []; rewrite app_nil_r..|by eexists]. Qed.
Lemma a_make_slice l n : aok (make_slice l n).
Proof. intros s. repeat split; cbn; [by exists []; rewrite app_nil_r|by eexists|by exists []; rewrite app_nil_r..]. Qed.
Lemma a_copyStrings v : aok (copyStrings v).
Proof. intros s. unfold copyStrings. destruct (_ =? _)%nat; [reflexivity|apply a_make_slice]. Qed.
Local Hint Resolve a_make_map a_make_bd a_make_rp a_make_slice a_copyStrings : pres.
Lemma a_copy_entries l dst : aok (copy_entries l dst).
Proof. revert dst. induction l as [|[key v] l IH]; intros dst; cbn [copy_entries]; pres_go. Qed.
Local Hint Resolve a_copy_entries : pres.
Lemma a_copyHeaders o : aok (copyHeaders o).
Proof. unfold copyHeaders. pres_go. Qed.
Lemma a_copyBody o : aok (copyBody U fuel o).
Proof. apply a_still. intros s. unfold copyBody. destruct o; [|done]. unfold ybind, body_cmd. by repeat case_match; simplify_eq/=. Qed.
Lemma a_on_heap {A} (m : prog A) : aok (on_heap U m).
Proof. apply a_still. intros s. unfold on_heap. by destruct (run _ _ _). Qed.
Lemma a_body c : aok (body_cmd U fuel c).
Proof. apply a_still. intros s. unfold body_cmd. by destruct (uexec _ _ _ _). Qed.
Local Hint Resolve a_copyHeaders a_copyBody a_on_heap a_body : pres.
Lemma a_bd_Copy b : aok (bd_Copy U fuel b).
Proof. unfold bd_Copy. pres_go. Qed.
Lemma a_rp_Copy x : aok (rp_Copy U fuel x).
Proof. unfold rp_Copy. pres_go. Qed.
Local Hint Resolve a_bd_Copy a_rp_Copy : pres.

Lemma q_w_do k f : qok (w_do U fuel k f).
Proof. unfold w_do. pres_go. Qed.

Lemma s_rdo c s : swf s -> swf (rdo U fuel c s).1.
Proof. apply (s_texec U fuel (TDo c) s). Qed.
Lemma g_rdo c s : mindful n0 c -> (forall r k, c <> RServe r k) -> good s -> good (rdo U fuel c s).1.
Proof.
  intros Hp Hc [HT Hs]. split; [|by apply s_rdo]. apply t_rdo; [|done]. destruct c as [| | | |f| |b f| | | | |r k| | | |]; try done; try (by destruct f). by destruct (Hc r k).
Qed.
(** A call that keeps to one Builder *)
Lemma w_region bo c b0 s : mindful n0 c -> (forall r k, c <> RServe r k) -> bo <> Some b0 ->
  (forall bs ms : nat -> Prop, bs b0 -> keeps_to U bs ms c) -> wR bo s (rdo U fuel c s).1.
Proof.
  intros Hp Hc Hne Hk H. revert H.
  set (own := fun m : nat => exists x, s_bds s !! b0 = Some x /\ bd_hdrs x = Some m).
  set (bs := fun b : nat => b = b0 \/ (length (s_bds s) <= b)%nat).
  set (ms := fun m : nat => own m \/ (length (s_maps s) <= m)%nat).
  set (az := fun a : nat => (exists m key, own m /\ array_of s m key = Some a) \/ (length (s_arrs s) <= a)%nat).
  assert (Hr : rR U bs ms az s (rdo U fuel c s).1) by (apply r_rdo, Hk; by left).
  assert (Hi : good s -> inv U bs ms az s).
  { intros [HT Hs]. split.
    - intros m x [Hm|Hm] Hx key v Hv a Ha; [|apply lookup_lt_Some in Hx; unfold mid in *; lia]. left. exists m, key. split; [done|].
      unfold array_of, mid in *. by rewrite Hx, Hv.
    - intros b x [->|Hb] Hx; [|apply lookup_lt_Some in Hx; lia]. split.
      + intros g v v' m i Hg. pose proof (t_gen _ _ HT b0 x Hx). congruence.
      + intros m Hm. left. by exists x.
    - intros m Hm. by right.
    - intros a Ha. by right.
    - intros b Hb. by right. }
  assert (Hv : good s -> forall m, (m < length (s_maps s))%nat -> ~ own m -> view (rdo U fuel c s).1 m = view s m).
  { intros Hg m Hm Hno. destruct (Hr (Hi Hg)) as [_ Hf]. destruct Hg as [HT Hs]. eapply frame_view; [exact Hf|intros [?|?]; [done|lia]|].
    intros key a Ha [(m2 & key2 & (x & Hx & Hh) & Ha2)|Hlt]; [|pose proof (t_lt _ _ HT m key a Ha); lia].
    destruct (t_bd _ _ HT b0 x m2 Hx Hh) as [Hn _]. destruct (t_own _ _ HT m2 key2 a m key Hn) as [-> _]; [|done|done|].
    - intros r y Hy. by eapply (t_rps _ _ HT).
    - apply Hno. by exists x. }
  apply w_of; [by apply g_rdo|..].
  - intros Hg r y Hy. destruct (Hr (Hi Hg)) as [_ Hf]. split; [by apply (f_rps _ _ _ _ _ Hf)|]. intros m Hm. apply Hv; [done|by eapply (t_rp _ _ (proj1 Hg))|].
    intros (x & Hx & Hh). by eapply (t_rps _ _ (proj1 Hg)).
  - intros Hg b x -> Hx. destruct (Hr (Hi Hg)) as [_ Hf]. split.
    + rewrite (f_bds _ _ _ _ _ Hf); [done|]. intros [->|Hb]; [done|]. apply lookup_lt_Some in Hx. lia.
    + intros m Hm. apply Hv; [done|by eapply (t_bd _ _ (proj1 Hg))|]. intros (x2 & Hx2 & Hh). apply Hne. f_equal. by eapply (t_bds _ _ (proj1 Hg)).
Qed.
Lemma w_map bo f s : mindful n0 (RMap f) -> wR bo s (rdo U fuel (RMap f) s).1.
Proof.
  intros Hp. assert (Hm : swf s -> forall m, (n0 <= m)%nat -> view (rdo U fuel (RMap f) s).1 m = view s m).
  { intros Hs m Hm. cbn [rdo]. destruct f; try done; cbn [h_do mindful] in *; unfold ybind, the_map.
    - destruct (s_maps s !! m0) as [x|] eqn:Hx; [|done]. cbn. destruct (new_entry s m0 x key l extra Hs Hx) as (_ & _ & _ & H). apply H. unfold mid in *. lia.
    - destruct (s_maps s !! m0) as [x|] eqn:Hx; [|done]. cbn. unfold view. cbn. rewrite list_lookup_insert_ne; [done|]. unfold mid in *. lia. }
  assert (Hb : s_bds (rdo U fuel (RMap f) s).1 = s_bds s /\ s_rps (rdo U fuel (RMap f) s).1 = s_rps s).
  { cbn [rdo]. destruct f; try done; cbn [h_do mindful] in *; unfold ybind, the_map; by destruct (s_maps s !! _). }
  destruct Hb as [Hb Hr]. apply w_of; [by apply g_rdo|..].
  - intros [HT Hs] r y Hy. rewrite Hr. split; [done|]. intros m Hh. apply Hm; [done|]. by eapply (t_rp _ _ HT).
  - intros [HT Hs] b x _ Hx. rewrite Hb. split; [done|]. intros m Hh. apply Hm; [done|]. by eapply (t_bd _ _ HT).
Qed.
Lemma w_rdo bo c s : mindful n0 c -> (forall b, bo = Some b -> others b c) -> wR bo s (rdo U fuel c s).1.
Proof.
  intros Hp Ho. destruct c.
  all: try (apply w_a; [by apply g_rdo|]; cbn [rdo]; match goal with |- aR ?z (?m ?z).1 => enough (aok m) by auto end; by pres_go).
  - by apply w_map.
  - apply (w_region bo _ b); [done|done|intros ->; by apply (Ho b)|]. intros bs ms Hb. cbn. destruct f; try done.
  - apply (w_region bo _ b); [done|done|intros ->; by apply (Ho b)|]. intros bs ms Hb. done.
  - apply (w_region bo _ b); [done|done|intros ->; by apply (Ho b)|]. intros bs ms Hb. done.
  - apply w_q; [apply s_rdo|]. cbn [rdo]. unfold ybind at 1, the_rp. destruct (s_rps s !! r) as [y|] eqn:Hr; [|reflexivity].
    pose proof (q_rp_Serve s y k (or_intror (ex_intro _ r Hr))) as H. unfold ybind. destruct (rp_Serve U fuel y k s) as [s' [e|e|]]; done.
  - apply w_q; [apply s_rdo|]. cbn [rdo]. match goal with |- qR s (?m s).1 => enough (qok m) by auto end. pres_go.
  - apply w_q; [apply s_rdo|]. cbn [rdo]. apply q_w_do.
Qed.

(** ** Requests *)
Lemma w_handler bo f s s' x : each (mindful n0) f -> (forall b, bo = Some b -> each (others b) f) -> run_handler U fuel f s = (s', x) ->
  wR bo s s' /\ forall y, x = inl (ORet y) -> known s' y.
Proof.
  revert s. induction f as [[r|]|[e|]|c k IH]; intros s Hp Ho; cbn [run_handler].
  - destruct (s_rps s !! r) as [y|] eqn:Hr; intros [= <- <-]; (split; [reflexivity|]); [|done]. intros z [= <-]. right. by exists r.
  - intros [= <- <-]. split; [reflexivity|]. intros z [= <-]. by left.
  - intros [= <- <-]. by split.
  - intros [= <- <-]. by split.
  - destruct Hp as [Hc Hp]. pose proof (w_rdo bo c s Hc (fun b Hb => proj1 (Ho b Hb))) as H1. destruct (rdo U fuel c s) as [s1 o]; cbn in H1.
    assert (Hgo : run_handler U fuel (k o) s1 = (s', x) -> wR bo s s' /\ forall y, x = inl (ORet y) -> known s' y).
    { intros H2. destruct (IH o s1 (Hp o) (fun b Hb => proj2 (Ho b Hb) o) H2) as [H3 H4]. split; [by etrans|done]. }
    destruct o; [done|done|]. intros [= <- <-]. by split.
Qed.
Lemma w_texec bo c s : each_in (mindful n0) c -> (forall b, bo = Some b -> each_in (others b) c) -> wR bo s (texec U fuel c s).1.
Proof.
  intros Hp Ho. destruct c as [c|f k isHEAD]; [by apply w_rdo|]. cbn [texec each_in] in *.
  assert (H : wR bo s (ServeHTTP U fuel f k isHEAD s).1).
  { unfold ServeHTTP. pose proof (q_NewWriter k isHEAD s) as Q1. pose proof (s_rdo (RNewWriter k isHEAD) s) as S1. cbn [rdo] in S1. unfold ybind in S1.
    destruct (NewWriter U k isHEAD s) as [s1 [ww|e|]]; cbn in Q1, S1; [|by apply w_q..]. etrans; [by apply w_q|]. clear Q1 S1 s.
    destruct (run_handler U fuel f s1) as [s2 x] eqn:Hrun. destruct (w_handler bo f s1 s2 x Hp Ho Hrun) as [W2 K2]. 
    assert (Hd : forall s pv, wR bo s (adaptor_defer U ww pv s).1). { intros s pv. apply w_q; [|apply q_defer]. apply s_defer. }
    destruct x as [[y|e|]|[]]; cbn; [|by etrans..].
    pose proof (q_rp_Serve s2 y ww (K2 y eq_refl)) as Q3. pose proof (HdrFacts.s_rp_Serve U fuel y ww s2) as S3.
    destruct (rp_Serve U fuel y ww s2) as [s3 [[e|]|e|]]; cbn in *; (etrans; [exact W2|]); (etrans; [apply w_q; [|exact Q3]; exact S3|]); done. }
  unfold ybind. by destruct (ServeHTTP U fuel f k isHEAD s) as [s' [[]|e|]].
Qed.
Lemma w_history bo cs : forall s, Forall (each_in (mindful n0)) cs -> (forall b, bo = Some b -> Forall (each_in (others b)) cs) -> wR bo s (thistory U fuel s cs).1.
Proof.
  induction cs as [|c cs IH]; intros s Hp Ho; cbn [thistory]; [reflexivity|]. apply Forall_cons in Hp as [Hc Hp].
  pose proof (w_texec bo c s Hc (fun b Hb => proj1 (proj1 (Forall_cons _ _ _) (Ho b Hb)))) as H1. destruct (texec U fuel c s) as [s1 o]; cbn in H1.
  specialize (IH s1 Hp (fun b Hb => proj2 (proj1 (Forall_cons _ _ _) (Ho b Hb)))). destruct (thistory U fuel s1 cs) as [s2 os]. cbn in IH. destruct o; cbn; [by etrans..|done].
Qed.

(** ** The theorems *)
Lemma plainly_good s : mindfully U fuel n0 s -> good s.
Proof.
  intros (v & n & maps & arrs & cs & os & Hl & Hs & Hcs & H & _). pose proof (w_history None cs (tinitial v n maps arrs) Hcs) as W. rewrite H in W. cbn in W.
  apply W; [done|]. split; [|done]. split; cbn; try done; [| |lia].
  - intros m key a Ha. by eapply swf_array in Ha.
  - intros m key a m' key' Hm _ Ha. unfold array_of in Ha. cbn in Ha. unfold mid in *. rewrite lookup_ge_None_2 in Ha by lia. done.
Qed.
Lemma plainly_reaches s : mindfully U fuel n0 s -> treaches U fuel s.
Proof. intros (v & n & maps & arrs & cs & os & _ & Hs & _ & H & _). by exists v, n, maps, arrs, cs, os. Qed.
Lemma plainly_more s cs s' os : mindfully U fuel n0 s -> Forall (each_in (mindful n0)) cs -> thistory U fuel s cs = (s', os) -> OSpin ∉ os -> mindfully U fuel n0 s'.
Proof.
  intros (v & n & maps & arrs & cs0 & os0 & Hl & Hs & Hcs0 & H0 & N0) Hcs H N. exists v, n, maps, arrs, (cs0 ++ cs), (os0 ++ os).
  split; [done|]. split; [done|]. split; [by apply Forall_app|]. rewrite (hist_app U fuel _ _ cs _ _ H0 N0), H. split; [done|]. rewrite elem_of_app. tauto.
Qed.
Theorem builders_isolated s b w cs s' os :
  mindfully U fuel n0 s -> builder_is s b w -> Forall (each_in (mindful n0)) cs -> Forall (each_in (others b)) cs -> thistory U fuel s cs = (s', os) -> builder_is s' b w.
Proof.
  intros Hs%plainly_good (x & Hx & HX & Hw) Hcs Ho H. pose proof (w_history (Some b) cs s Hcs) as W. rewrite H in W. cbn in W.
  destruct W as (_ & _ & W); [by intros ? [= <-]|done|]. destruct (W b x _ eq_refl Hx HX). by exists x.
Qed.
Theorem responses_fixed s r w cs s' os :
  mindfully U fuel n0 s -> response_is s r w -> Forall (each_in (mindful n0)) cs -> thistory U fuel s cs = (s', os) -> response_is s' r w.
Proof.
  intros Hs%plainly_good (y & Hy & HX & Hw) Hcs H. pose proof (w_history None cs s Hcs) as W. rewrite H in W. cbn in W.
  destruct W as (_ & W & _); [done|done|]. destruct (W r y _ Hy HX). by exists y.
Qed.
Theorem have_values s : mindfully U fuel n0 s ->
  (forall b, (b < length (s_bds s))%nat -> exists w, builder_is s b w) /\ (forall r, (r < length (s_rps s))%nat -> exists w, response_is s r w).
Proof.
  intros Hs%plainly_good. split.
  - intros b [x Hx]%lookup_lt_is_Some. destruct (good_view_bd s b x Hs Hx) as [X HX]. by exists {| v_code := bd_code x; v_header := X; v_body := bd_body x; v_err := bd_err x |}, x.
  - intros r [y Hy]%lookup_lt_is_Some. destruct (good_view_rp s r y Hs Hy) as [X HX]. by exists {| v_code := rp_code y; v_header := X; v_body := rp_body y; v_err := rp_err y |}, y.
Qed.
Lemma good_safe s b x f : good s -> s_bds s !! b = Some x -> safe_append s x f.
Proof.
  intros [HT _] Hb key m m' Hf Hm key' a Hne Ha Ha'. destruct (t_bd _ _ HT b x m Hb Hm) as [Hn _].
  destruct (t_own _ _ HT m key a m' key' Hn) as [-> ->]; [|done|done|done]. intros r y Hy. by eapply (t_rps _ _ HT).
Qed.
Lemma calls s b w f s' o : good s -> builder_is s b w -> simple f -> texec U fuel (TDo (RBuilder b f)) s = (s', o) -> builder_is s' b (called U w f).
Proof.
  intros Hs (x & Hx & HX & E1 & E2 & E3) Hf H.
  assert (Hset : forall x', setter f -> set_field f x = Some x' -> bd_hdrs x' = bd_hdrs x -> builder_is s' b {| v_code := bd_code x'; v_header := v_header w; v_body := bd_body x'; v_err := bd_err x' |}).
  { intros x' F1 F2 F3. destruct (setters U fuel s b x _ f x' Hx HX F1 F2) as (s1 & H1 & Hb & Hv & _). rewrite H in H1. injection H1 as -> _.
    exists x'. rewrite Hb, list_lookup_insert by (by eapply lookup_lt_Some). by rewrite Hv. }
  assert (Hno : setter f -> set_field f x = None -> builder_is s' b w).
  { intros F1 F2. rewrite (setters_raise U fuel s b x f Hx F1 F2) in H. injection H as <- _. by exists x. }
  assert (Hhelp : header_helper f -> builder_is s' b (match header_after U f (v_header w) with
      | Some X => {| v_code := v_code w; v_header := X; v_body := v_body w; v_err := v_err w |} | None => w end)).
  { intros F1. destruct (header_after U f (v_header w)) as [X'|] eqn:F2.
    - destruct (header_helpers_swf U fuel s b x _ f X' (proj2 Hs) Hx HX F1) as (s1 & m & H1 & Hb & Hv & _); [by eapply good_safe|done|].
      rewrite H in H1. injection H1 as -> _. eexists. rewrite Hb, list_lookup_insert by (by eapply lookup_lt_Some). by split.
    - destruct (header_helpers_raise U fuel s b _ f F1 F2) as [e He]. rewrite H in He. injection He as -> _. by exists x. }
  destruct f; try done; try (by apply Hhelp); cbn [called].
  - destruct (_ && _) eqn:Hc; [|apply Hno; [done|cbn; by rewrite Hc]]. rewrite <- E2, <- E3.
    pose proof (Hset {| bd_gen := bd_gen x; bd_code := code; bd_hdrs := bd_hdrs x; bd_body := bd_body x; bd_err := bd_err x |} I) as K. cbn in K. rewrite Hc in K. by apply K.
  - destruct i as [i|]; [|by apply Hno]. rewrite <- E1, <- E3.
    by apply (Hset {| bd_gen := bd_gen x; bd_code := bd_code x; bd_hdrs := bd_hdrs x; bd_body := Some i; bd_err := bd_err x |} I).
  - rewrite <- E1, <- E2.
    by apply (Hset {| bd_gen := bd_gen x; bd_code := bd_code x; bd_hdrs := bd_hdrs x; bd_body := bd_body x; bd_err := err |} I).
Qed.
Theorem folded cs : forall s b w s' os, mindfully U fuel n0 s -> builder_is s b w ->
  Forall (each_in (mindful n0)) cs -> Forall (uses_simply b) cs -> thistory U fuel s cs = (s', os) -> OSpin ∉ os ->
  builder_is s' b (foldl (called U) w (omap (call_on b) cs)).
Proof.
  induction cs as [|c cs IH]; intros s b w s' os Hs Hb Hcs Hu H N; [by injection H as <- _|].
  apply Forall_cons in Hcs as [Hc Hcs]. apply Forall_cons in Hu as [Hu1 Hu]. cbn [thistory] in H. destruct (texec U fuel c s) as [s1 o] eqn:Hx.
  assert (Ho : o <> OSpin). { intros ->. injection H as _ <-. apply N. by apply elem_of_list_singleton. }
  assert (H1 : thistory U fuel s [c] = (s1, [o])). { cbn [thistory]. rewrite Hx. by destruct o. }
  assert (Hs1 : mindfully U fuel n0 s1). { eapply plainly_more; [exact Hs|by apply Forall_singleton|exact H1|]. by rewrite elem_of_list_singleton. }
  assert (H2 : exists os2, thistory U fuel s1 cs = (s', os2) /\ OSpin ∉ os2).
  { destruct (thistory U fuel s1 cs) as [s2 os2]. destruct o; [..|done]; injection H as <- <-; exists os2; (split; [done|]); rewrite elem_of_cons in N; tauto. }
  destruct H2 as (os2 & H2 & N2). destruct Hu1 as [Hu1|(f & -> & Hf)].
  - assert (Hnone : call_on b c = None). { destruct c as [c|]; [|done]. destruct c; try done. cbn in *. destruct (Nat.eqb_spec b0 b); [done|done]. }
    cbn [omap list_omap]. rewrite Hnone. eapply IH; [exact Hs1| |done|done|done|done]. eapply builders_isolated; [exact Hs|exact Hb| | |exact H1]; by apply Forall_singleton.
  - assert (Hsome : call_on b (TDo (RBuilder b f)) = Some f). { cbn. by rewrite Nat.eqb_refl. }
    cbn [omap list_omap]. rewrite Hsome. cbn [foldl]. eapply IH; [exact Hs1| |done|done|done|done]. exact (calls s b w f s1 o (plainly_good s Hs) Hb Hf Hx).
Qed.
Lemma built_header X X' n :
  (X' !! "Content-Type" = match X !! "Content-Type" with Some v => Some v | None => Some ["application/octet-stream"] end) ->
  (X' !! "Content-Length" = match X !! "Content-Length" with Some v => Some v | None => if 0 <=? n then Some [itoa n] else None end) ->
  (forall key, key <> "Content-Type" -> key <> "Content-Length" -> X' !! key = X !! key) ->
  X' = (if 0 <=? n then or_else (or_else X "Content-Type" "application/octet-stream") "Content-Length" (itoa n) else or_else X "Content-Type" "application/octet-stream").
Proof.
  intros H1 H2 H3. apply map_eq. intros key. unfold or_else.
  destruct (decide (key = "Content-Type")) as [->|N1]; [rewrite H1|destruct (decide (key = "Content-Length")) as [->|N2]; [rewrite H2|rewrite H3 by done]].
  all: destruct (X !! "Content-Type") eqn:E1; destruct (X !! "Content-Length") eqn:E2; destruct (0 <=? n); rewrite ?lookup_insert_ne by done; rewrite ?E1, ?E2; repeat (rewrite lookup_insert || rewrite lookup_insert_ne by done); rewrite ?E1, ?E2; done.
Qed.
Theorem builds s b w s' r : mindfully U fuel n0 s -> builder_is s b w -> texec U fuel (TDo (RBuild b)) s = (s', ORet (YHandle (Some r))) ->
  exists i n, v_body w = Some i /\ exec (wenv U) fuel (s_h s) (Call i BytesRemaining) = (s_h s', ORet (RInt n)) /\ r = length (s_rps s) /\
    response_is s' r (built n w) /\ builder_is s' b new_value.
Proof.
  intros Hs (x & Hx & HX & E1 & E2 & E3) H. destruct (bd_body x) as [i|] eqn:Hi; [|by rewrite (build_needs_body U fuel s b x Hx Hi) in H].
  destruct (build U fuel s b x _ i s' r (plainly_reaches s Hs) Hx HX Hi H) as (n & h & m & He & Hr & -> & <- & _ & X' & HX' & K1 & K2 & K3).
  pose proof (build_resets U fuel s b x i s' _ Hx Hi H) as Hb. exists i, n. split; [done|]. split; [done|]. split; [done|]. split.
  - eexists. rewrite Hr, lookup_app_r, Nat.sub_diag by done. split; [done|]. cbn. rewrite HX', E1, E2, E3. split; [|done]. f_equal. by apply built_header.
  - eexists. rewrite Hb, list_lookup_insert by (by eapply lookup_lt_Some). done.
Qed.
(** From NewBuilder to any later moment *)
Theorem lifetime s s0 b cs s1 os1 s2 r cs2 s3 os2 :
  mindfully U fuel n0 s -> texec U fuel (TDo RNewBuilder) s = (s0, ORet (YHandle (Some b))) ->
  Forall (each_in (mindful n0)) cs -> Forall (uses_simply b) cs -> thistory U fuel s0 cs = (s1, os1) -> OSpin ∉ os1 ->
  texec U fuel (TDo (RBuild b)) s1 = (s2, ORet (YHandle (Some r))) ->
  Forall (each_in (mindful n0)) cs2 -> thistory U fuel s2 cs2 = (s3, os2) ->
  let w := foldl (called U) new_value (omap (call_on b) cs) in
  exists i n, v_body w = Some i /\ exec (wenv U) fuel (s_h s1) (Call i BytesRemaining) = (s_h s2, ORet (RInt n)) /\ response_is s3 r (built n w).
Proof.
  intros Hs H0 Hcs Hu H1 N1 H2 Hcs2 H3 w.
  assert (P0 : mindfully U fuel n0 s0). { eapply (plainly_more s [TDo RNewBuilder]); [done|by apply Forall_singleton|by cbn [thistory]; rewrite H0|]. by rewrite elem_of_list_singleton. }
  assert (B0 : builder_is s0 b {| v_code := 0; v_header := ∅; v_body := None; v_err := None |}).
  { cbn in H0. injection H0 as <- <-. exists new_builder. cbn. rewrite lookup_app_r, Nat.sub_diag by done. done. }
  assert (P1 : mindfully U fuel n0 s1) by exact (plainly_more s0 cs s1 os1 P0 Hcs H1 N1).
  pose proof (folded cs s0 b _ s1 os1 P0 B0 Hcs Hu H1 N1) as B1. fold w in B1.
  destruct (builds s1 b w s2 r P1 B1 H2) as (i & n & Hi & Hn & _ & Hr & _). exists i, n. split; [done|]. split; [done|].
  eapply responses_fixed; [|exact Hr|exact Hcs2|exact H3].
  eapply (plainly_more s1 [TDo (RBuild b)]); [done|by apply Forall_singleton|by cbn [thistory]; rewrite H2|]. by rewrite elem_of_list_singleton.
Qed.

(** ** All methods *)
Lemma changed s s' b x x' w' new : s_bds s !! b = Some x -> changes s s' b x x' (v_header w') new -> bd_code x' = v_code w' -> bd_body x' = v_body w' -> bd_err x' = v_err w' -> builder_is s' b w'.
Proof. intros Hx (Hb & Hv & _) ? ? ?. exists x'. rewrite Hb, list_lookup_insert by (by eapply lookup_lt_Some). done. Qed.
Lemma methods s b w f : good s -> builder_is s b w -> mindful n0 (RBuilder b f) -> go_bdop U f ->
  builder_is (rdo U fuel (RBuilder b f) s).1 b (method U (match f with WithHeaders h => hview s h | _ => None end) (length (h_b (s_h s))) w f).
Proof.
  intros Hs Hw Hp Hgo. pose proof Hw as (x & Hx & HX & E1 & E2 & E3). pose proof (t_gen _ _ (proj1 Hs) b x Hx) as Hg.
  assert (Hsimple : simple f -> builder_is (rdo U fuel (RBuilder b f) s).1 b (called U w f)).
  { intros Hf. eapply (calls s b w f _ (rdo U fuel (RBuilder b f) s).2); [done|done|done|]. cbn [texec]. by destruct (rdo U fuel (RBuilder b f) s). }
  assert (Henc : forall src ctype g, encoding_of f = Some (src, ctype, g) -> go_bdop U f -> builder_is (rdo U fuel (RBuilder b f) s).1 b
    (match src with Some (inl _) => {| v_code := v_code w; v_header := <["Content-Type" := [ctype]]> (v_header w); v_body := Some (length (h_b (s_h s))); v_err := v_err w |} | _ => w end)).
  { intros src ctype g He Hgo'. destruct src as [[src|e]|].
    - assert (Hlen : zlen (g src) <= max_slice). { destruct f; try done; by eapply Hgo'. }
      destruct (encoders_swf U fuel s b x _ f src ctype g (proj2 Hs) Hx HX He Hlen) as (s' & m & i & o & H & Hc & _ & Hi). cbn [texec] in H. rewrite H. cbn.
      by eapply changed; [exact Hx|exact Hc|cbn; congruence..].
    - destruct (encoders_raise U fuel s b f _ _ _ He) as [H _]. specialize (H e eq_refl). cbn [texec] in H. by rewrite H.
    - destruct (encoders_raise U fuel s b f _ _ _ He) as [_ H]. specialize (H eq_refl). cbn [texec] in H. by rewrite H. }
  destruct f; try done; try (by apply Hsimple); try (exact (Henc _ _ _ eq_refl Hgo)); cbn [method].
  - destruct (hview s hdrs) as [Y|] eqn:HY.
    + destruct (with_headers_swf U fuel s b x hdrs Y (proj2 Hs) Hx HY) as (s' & m & H & Hb & _ & _ & Hv & _). cbn [texec] in H. rewrite H.
      eexists. cbn. rewrite Hb, list_lookup_insert by (by eapply lookup_lt_Some). done.
    + destruct hdrs as [h|]; [|done]. cbn in HY. unfold view in HY. destruct (s_maps s !! h) eqn:Hh; [done|]. cbn [rdo bd_do]. unfold bd_WithHeaders, copyHeaders, ybind, the_bd, the_map.
      rewrite Hx. cbn. by rewrite Hh.
  - destruct ((300 <=? code) && (code <=? 399)) eqn:Hc.
    + destruct (String.eqb_spec (TrimSpace location) "") as [Hl|Hl]; cbn [negb andb].
      * pose proof (redirect_needs_location U fuel s b code location Hl) as H. cbn [texec] in H. by rewrite H.
      * destruct (redirect_page_swf U fuel s b x code location (proj2 Hs) Hx Hg) as (s' & m & i & o & H & Hch & _ & Hi); [lia|done| |].
        { cbn in Hgo. rewrite <- zlen_text, redirect_text_page in Hgo. done. }
        cbn [texec] in H. rewrite H. by eapply changed; [exact Hx|exact Hch|cbn; congruence..].
    + cbn [andb]. cbn [rdo bd_do]. unfold bd_RedirectPage, ybind, massert. cbv zeta. destruct (code >=? 300) eqn:H1; [|done]. destruct (code <=? 399) eqn:H2; [lia|done].
  - destruct err as [err|].
    + destruct ((200 <=? code) && (code <=? 999)) eqn:Hc.
      * destruct (error_page_swf U fuel s b x code err (proj2 Hs) Hx Hg) as (s' & m & i & o & H & Hch & _ & Hi); [lia| |].
        { cbn in Hgo. rewrite <- zlen_text in Hgo. unfold error_text in Hgo. by rewrite !TextFacts.list_of_append in Hgo. }
        cbn [texec] in H. rewrite H. by eapply changed; [exact Hx|exact Hch|cbn; congruence..].
      * cbn [rdo bd_do]. unfold bd_ErrorPage, ybind, massert. destruct (code >=? 200) eqn:H1; [|done]. destruct (code <=? 999) eqn:H2; [lia|done].
    + pose proof (error_needs_error U fuel s b code) as H. cbn [texec] in H. by rewrite H.
Qed.
Lemma w_isolated s b w c : good s -> builder_is s b w -> mindful n0 c -> others b c -> builder_is (rdo U fuel c s).1 b w.
Proof.
  intros Hs (x & Hx & HX & Hw) Hp Ho. destruct (w_rdo (Some b) c s Hp) as (_ & _ & W); [by intros ? [= <-]|done|]. destruct (W b x _ eq_refl Hx HX). by exists x.
Qed.
Lemma next_ok s b w c : good s -> builder_is s b w -> mindful n0 c -> go_rcmd U c -> builder_is (rdo U fuel c s).1 b (next U s b w c).
Proof.
  intros Hs Hw Hp Hgo.
  assert (Hiso : others b c -> builder_is (rdo U fuel c s).1 b w) by (by apply w_isolated).
  destruct c as [| | | |f| |b' f|b'| |b'| | | | | |]; try (by apply Hiso); cbn [next others] in *.
  - destruct (Nat.eqb_spec b' b) as [->|Hne]; [|by apply Hiso]. by apply methods.
  - destruct (decide (b' = b)) as [->|Hne]; [|by apply Hiso]. destruct Hw as (x & Hx & HX & E1 & E2 & E3).
    destruct (Headers_view s b x _ (proj2 Hs) Hx HX) as (s' & m & H & Hv & _ & Hb & _). cbn [rdo]. unfold ybind. rewrite H. cbn.
    eexists. rewrite Hb, list_lookup_insert by (by eapply lookup_lt_Some). by split.
  - destruct (Nat.eqb_spec b' b) as [->|Hne]; [|by apply Hiso]. destruct Hw as (x & Hx & HX & E1 & E2 & E3). rewrite <- E2. destruct (bd_body x) as [i|] eqn:Hi.
    + destruct (rdo U fuel (RBuild b) s) as [s' o] eqn:H. pose proof (build_resets U fuel s b x i s' o Hx Hi H) as Hb.
      eexists. cbn. rewrite Hb, list_lookup_insert by (by eapply lookup_lt_Some). done.
    + pose proof (build_needs_body U fuel s b x Hx Hi) as H. cbn [texec] in H. rewrite H. exists x. by rewrite Hi.
Qed.
Lemma next_handler_ok b f : forall s w s' y, good s -> builder_is s b w -> each (mindful n0) f -> each (go_rcmd U) f -> run_handler U fuel f s = (s', y) -> y <> inl OSpin ->
  builder_is s' b (next_handler U fuel b f s w).
Proof.
  induction f as [[r|]|[e|]|c k IH]; intros s w s' y Hs Hw Hp Hgo; cbn [run_handler next_handler].
  - destruct (s_rps s !! r); by intros [= <- _] _.
  - by intros [= <- _] _.
  - by intros [= <- _] _.
  - by intros [= <- _] _.
  - destruct Hp as [Hc Hp]. destruct Hgo as [Hg Hgo]. pose proof (next_ok s b w c Hs Hw Hc Hg) as Hw1.
    destruct (w_rdo None c s Hc) as (Hs1 & _ & _); [done|done|]. destruct (rdo U fuel c s) as [s1 o]; cbn in *.
    destruct o; [by eapply IH..|]. intros [= <- <-]. done.
Qed.
Lemma next_step_ok b c s w s' o : good s -> builder_is s b w -> each_in (mindful n0) c -> each_in (go_rcmd U) c -> texec U fuel c s = (s', o) -> o <> OSpin ->
  builder_is s' b (next_step U fuel b c s w).
Proof.
  intros Hs Hw Hp Hgo H No. destruct c as [c|f k isHEAD]; cbn [each_in texec next_step] in *.
  { pose proof (next_ok s b w c Hs Hw Hp Hgo) as G. by rewrite H in G. }
  assert (Hq : forall s1 s2 w, swf s2 -> qR s1 s2 -> good s1 -> builder_is s1 b w -> builder_is s2 b w).
  { intros s1 s2 w1 Hw2 Q G (x & Hx & HX & E). destruct (w_q (Some b) s1 s2 (fun _ => Hw2) Q G) as (_ & _ & W). destruct (W b x _ eq_refl Hx HX). by exists x. }
  assert (H' : exists o', ServeHTTP U fuel f k isHEAD s = (s', o') /\ o' <> OSpin).
  { unfold ybind in H. destruct (ServeHTTP U fuel f k isHEAD s) as [s1 [[]|e|]]; injection H as <- <-; eauto. }
  destruct H' as (o' & H' & No'). clear H. rename H' into H. unfold ServeHTTP in H.
  pose proof (q_NewWriter k isHEAD s) as Q1. pose proof (s_NewWriter U k isHEAD s (proj2 Hs)) as S1.
  destruct (NewWriter U k isHEAD s) as [s1 [ww|e|]]; cbn in Q1, S1; [|injection H as <- _; by eapply Hq..].
  pose proof (Hq s s1 w S1 Q1 Hs Hw) as Hw1. assert (Hs1 : good s1) by (split; [by eapply q_T; [|apply Hs]|done]).
  destruct (run_handler U fuel f s1) as [s2 y] eqn:Hrun. destruct (w_handler None f s1 s2 y Hp ltac:(done) Hrun) as [W2 K2]. destruct (W2 Hs1) as (Hs2 & _ & _).
  assert (Hd : forall s pv s', good s -> builder_is s b (next_handler U fuel b f s1 w) -> adaptor_defer U ww pv s = (s', o') -> builder_is s' b (next_handler U fuel b f s1 w)).
  { intros z pv z' G B E. pose proof (q_defer ww pv z) as Q. pose proof (s_defer U ww pv z (proj2 G)) as S. rewrite E in Q, S. by eapply Hq. }
  assert (Hw2 : y <> inl OSpin -> builder_is s2 b (next_handler U fuel b f s1 w)) by (intros; by eapply next_handler_ok).
  destruct y as [[y|e|]|[]].
  - pose proof (q_rp_Serve s2 y ww (K2 y eq_refl)) as Q3. pose proof (s_rp_Serve U fuel y ww s2 (proj2 Hs2)) as S3.
    destruct (rp_Serve U fuel y ww s2) as [s3 r3]. cbn in Q3, S3. pose proof (Hq s2 s3 _ S3 Q3 Hs2 (Hw2 ltac:(done))) as Hw3.
    assert (Hs3 : good s3) by (split; [by eapply q_T; [|apply Hs2]|done]).
    destruct r3 as [[e|]|e|]; [by eapply Hd..|]. injection H as _ <-. done.
  - eapply Hd; [exact Hs2|by apply Hw2|exact H].
  - injection H as _ <-. done.
  - eapply Hd; [exact Hs2|by apply Hw2|exact H].
Qed.
Theorem evolved cs : forall s b w s' os, mindfully U fuel n0 s -> builder_is s b w ->
  Forall (each_in (mindful n0)) cs -> Forall (each_in (go_rcmd U)) cs -> thistory U fuel s cs = (s', os) -> OSpin ∉ os ->
  builder_is s' b (evolves U fuel b cs s w).
Proof.
  enough (G : forall s b w s' os, good s -> builder_is s b w ->
    Forall (each_in (mindful n0)) cs -> Forall (each_in (go_rcmd U)) cs -> thistory U fuel s cs = (s', os) -> OSpin ∉ os -> builder_is s' b (evolves U fuel b cs s w)).
  { intros s b w s' os Hs%plainly_good. by apply G. }
  induction cs as [|c cs IH]; intros s b w s' os Hs Hb Hcs Hgo H N; [by injection H as <- _|].
  apply Forall_cons in Hcs as [Hc Hcs]. apply Forall_cons in Hgo as [Hg Hgo]. cbn [thistory evolves] in *.
  destruct (w_texec None c s Hc) as (Hs1 & _ & _); [done|done|].
  destruct (texec U fuel c s) as [s1 o] eqn:Hx. cbn in Hs1 |- *.
  assert (Ho : o <> OSpin). { intros ->. injection H as _ <-. apply N. by apply elem_of_list_singleton. }
  destruct (thistory U fuel s1 cs) as [s2 os2] eqn:H2.
  assert (Hos : s2 = s' /\ OSpin ∉ os2). { destruct o; [..|done]; injection H as <- <-; (split; [done|]); rewrite elem_of_cons in N; tauto. } destruct Hos as [-> N2].
  eapply IH; [exact Hs1| |done|done|exact H2|done]. by eapply next_step_ok.
Qed.
Theorem copies_builder s b w s' b2 : mindfully U fuel n0 s -> builder_is s b w -> texec U fuel (TDo (RCopyBuilder b)) s = (s', ORet (YNew (Some b2) None)) ->
  b2 = length (s_bds s) /\ exists w2, builder_is s' b2 w2 /\ copy_of w w2 (fun i j => exec (wenv U) fuel (s_h s) (Call i Copy) = (s_h s', ORet (RBody j None))).
Proof.
  intros Hs (x & Hx & HX & E1 & E2 & E3) H.
  destruct (copy_builder U fuel s b x _ s' b2 (plainly_reaches s Hs) Hx HX H) as (x2 & -> & Hb & _ & _ & C1 & C2 & C3 & Hv & _). split; [done|].
  exists {| v_code := bd_code x2; v_header := v_header w; v_body := bd_body x2; v_err := bd_err x2 |}. split.
  - exists x2. rewrite Hb, lookup_app_r, Nat.sub_diag by done. done.
  - split; [cbn; congruence|]. split; [done|]. split; [cbn; congruence|]. cbn. rewrite <- E2. destruct C3 as [[-> ->]|(i & j & -> & -> & C3)]; done.
Qed.
Theorem copies_response s r w s' r2 : mindfully U fuel n0 s -> response_is s r w -> texec U fuel (TDo (RCopy r)) s = (s', ORet (YNew (Some r2) None)) ->
  r2 = length (s_rps s) /\ exists w2, response_is s' r2 w2 /\ copy_of w w2 (fun i j => exec (wenv U) fuel (s_h s) (Call i Copy) = (s_h s', ORet (RBody j None))).
Proof.
  intros Hs (y & Hy & HX & E1 & E2 & E3) H. cbn [texec rdo] in H. unfold ybind, the_rp in H. rewrite Hy in H. cbn in H. unfold rp_Copy, ybind, copyBody, make_rp in H. cbv zeta in H.
  assert (Hv : forall m X, hview s m = Some X -> forall h n, hview (put_rps (put_h s h) n) m = Some X) by (intros [m|] X HX' h n; exact HX').
  destruct (rp_body y) as [i|] eqn:Hi.
  - unfold body_cmd, ybind in H. destruct (uexec U fuel (s_h s) (Call i Copy)) as [h o] eqn:Hu. destruct o as [[]|e|]; try done. cbn in H. destruct err; [done|]. cbn in H. injection H as <- <-. split; [done|].
    exists {| v_code := v_code w; v_header := v_header w; v_body := Some b; v_err := v_err w |}. split.
    + eexists. cbn. rewrite lookup_app_r, Nat.sub_diag by done. cbn. split; [done|]. cbn. split; [|done]. destruct (rp_hdrs y); exact HX.
    + split; [done|]. split; [done|]. split; [done|]. cbn. rewrite <- E2. by apply Hazard.uexec_ret in Hu.
  - cbn in H. injection H as <- <-. split; [done|]. exists w. split.
    + eexists. cbn. rewrite lookup_app_r, Nat.sub_diag by done. cbn. split; [done|]. cbn. split; [|done]. destruct (rp_hdrs y); exact HX.
    + split; [done|]. split; [done|]. split; [done|]. by rewrite <- E2.
Qed.
End Value.
