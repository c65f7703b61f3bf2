(** * Writers: proofs of C28-C32 *)
From stdpp Require Import gmap.
From Coq Require Import ZifyBool.
From Verif Require Import RespSpec RespFacts RunFacts.

Section Writer.
Context {V : Type} (U : uenv V) (fuel : nat).
Notation wst := (wst V).
Implicit Types (w : wst) (s : state V) (k : wid).

(** ** The invariant *)
Definition is_dead (x : wrapper) : bool := ww_isHEAD x || (ww_status x =? StatusNoContent).
Definition good_caps (x : wrapper) : Prop :=
  let c := u_caps U (ww_next x) in
  match ww_kind x with
  | KFancy => is_fancy c = true
  | KFlush => is_fancy c = false /\ wc_flusher c = true
  | KBasic => wc_flusher c = false
  end.
Record wrap_ok (k : wid) (x : wrapper) (log : list uev) : Prop := {
  ok_caps : good_caps x;
  ok_next : Forall (fun e => match e with
      | UAsked _ _ => True
      | UHeader _ u _ _ | UWrite _ u _ _ | UPush _ u _ _ | UFlush _ u _ | UReadFrom _ u _ | UReadFromEnd _ u _ => u = ww_next x end)
      (sent_by k log);
  ok_shape : exists pre post, sent_by k log = pre ++ post /\ Forall is_push pre /\
     match post with
     | [] => ww_status x = 0
     | UHeader _ _ st _ :: rest => ww_status x = st /\ 100 <= st <= 999 /\ Forall (fun e => ~ is_header e) rest
     | _ => False
     end;
  ok_bytes : ww_bytes x = wrap64 (total_accepted (sent_by k log));
  ok_dead : is_dead x = true -> Forall (fun e => ~ is_data e) (sent_by k log);
  ok_saw : ww_sawError x = true <-> Exists write_failed (sent_by k log) \/ asked_twice k log }.

Definition winv w : Prop :=
  (forall (k : wid) x, v_objs w !! k = Some (WWrap x) -> wrap_ok k x (v_log w)) /\
  Forall (fun e => match e with UAsked k _ => (k < length (v_objs w))%nat | _ => match made_by e with Some k => (k < length (v_objs w))%nat | None => True end end) (v_log w).
Definition wgrow w w' : Prop :=
  (exists l, v_log w' = v_log w ++ l) /\ (length (v_objs w) <= length (v_objs w'))%nat /\
  (forall (k : wid) o, v_objs w !! k = Some o -> (forall x, o <> WWrap x) -> v_objs w' !! k = Some o) /\
  (forall (k : wid) x, v_objs w !! k = Some (WWrap x) -> exists x', v_objs w' !! k = Some (WWrap x') /\
     ww_kind x' = ww_kind x /\ ww_next x' = ww_next x /\ ww_isHEAD x' = ww_isHEAD x /\
     (ww_status x <> 0 -> ww_status x' = ww_status x) /\ (ww_sawError x = true -> ww_sawError x' = true)).
Definition wstep w w' : Prop := winv w -> winv w' /\ wgrow w w'.

Lemma wgrow_refl w : wgrow w w.
Proof. split; [exists []; by rewrite app_nil_r|]. split; [lia|]. split; [done|]. intros k x H. exists x. eauto 10. Qed.
Lemma wgrow_trans w1 w2 w3 : wgrow w1 w2 -> wgrow w2 w3 -> wgrow w1 w3.
Proof.
  intros ([l1 H1] & L1 & R1 & W1) ([l2 H2] & L2 & R2 & W2). split; [exists (l1 ++ l2); rewrite H2, H1; by rewrite app_assoc|]. split; [lia|].
  split; [eauto|]. intros k x Hk. destruct (W1 k x Hk) as (x1 & Hk1 & A1 & B1 & C1 & D1 & F1).
  destruct (W2 k x1 Hk1) as (x2 & Hk2 & A2 & B2 & C2 & D2 & F2). exists x2. split; [done|].
  split; [congruence|]. split; [congruence|]. split; [congruence|]. split; [|auto]. intros Hs. rewrite D2; [auto|]. rewrite D1; auto.
Qed.
Lemma wstep_refl w : wstep w w.
Proof. intros H. split; [done|apply wgrow_refl]. Qed.
Lemma wstep_trans w1 w2 w3 : wstep w1 w2 -> wstep w2 w3 -> wstep w1 w3.
Proof. intros H1 H2 H. destruct (H1 H) as [I1 G1]. destruct (H2 I1) as [I2 G2]. split; [done|]. by eapply wgrow_trans. Qed.

(** Monadic actions. *)
Definition wok {A} (m : wm A) : Prop := forall w : wst, wstep w (m w).1.
Definition wR s s' : Prop := wstep (world s) (world s').
Global Instance wR_refl : Reflexive wR.
Proof. intros s. apply wstep_refl. Qed.
Global Instance wR_trans : Transitive wR.
Proof. intros s1 s2 s3. apply wstep_trans. Qed.
Notation mok := (pres wR).

Lemma wok_ret {A} (a : A) : wok (wret a).
Proof. intros w. apply wstep_refl. Qed.
Lemma wok_panic {A} e : wok (@wpanic V A e).
Proof. intros w. apply wstep_refl. Qed.
Lemma wok_bind {A B} (m : wm A) (k : A -> wm B) : wok m -> (forall a, wok (k a)) -> wok (wbind m k).
Proof.
  intros Hm Hk w. unfold wbind. specialize (Hm w). destruct (m w) as [w' [a|e]]; cbn in *; [|done]. eapply wstep_trans; [done|apply Hk].
Qed.
Lemma mok_writer {A} (m : wm A) : wok m -> mok (on_writer m).
Proof. intros H s. unfold on_writer, wR. specialize (H (world s)). unfold world in *. destruct (m _) as [w [a|e]]; cbn in *; done. Qed.

Lemma put_v_ok w v : wstep w (put_v w v).
Proof. intros [H1 H2]. split; [done|]. split; [exists []; cbn; by rewrite app_nil_r|]. split; [cbn; lia|]. split; [done|]. intros k x H. exists x. eauto 10. Qed.
Lemma mok_outside {A} (m : V -> V * (A + panic)) : mok (outside m).
Proof. intros s. unfold outside, wR, world. destruct (m _) as [v x]. cbn. apply put_v_ok. Qed.

(** ** Adding an event *)
Lemma sent_by_app k l l' : sent_by k (l ++ l') = sent_by k l ++ sent_by k l'.
Proof. apply filter_app. Qed.
Lemma sent_by_other k e : made_by e <> Some k -> sent_by k [e] = [].
Proof. intros H. unfold sent_by. rewrite filter_cons_False; done. Qed.
Lemma sent_by_own k e : made_by e = Some k -> sent_by k [e] = [e].
Proof. intros H. unfold sent_by. rewrite filter_cons_True; done. Qed.
Lemma asked_twice_snoc k l e :
  asked_twice k (l ++ [e]) <->
  asked_twice k l \/ exists st', e = UAsked k st' /\ 100 <= st' <= 999 /\ exists u st r, UHeader (Some k) u st r ∈ l.
Proof.
  split.
  - intros (l1 & u & st & r & l2 & st' & l3 & Heq & H). destruct l3 as [|x l3 _] using rev_ind.
    + right. exists st'. rewrite app_comm_cons, app_assoc in Heq. apply app_inj_tail in Heq as [-> ->]. split; [done|]. split; [done|].
      exists u, st, r. set_solver.
    + left. exists l1, u, st, r, l2, st', l3. split; [|done].
      replace (l1 ++ UHeader (Some k) u st r :: l2 ++ UAsked k st' :: l3 ++ [x]) with
        ((l1 ++ UHeader (Some k) u st r :: l2 ++ UAsked k st' :: l3) ++ [x]) in Heq by (rewrite <- !app_assoc; cbn; by rewrite <- !app_assoc).
      by apply app_inj_tail in Heq as [-> _].
  - intros [(l1 & u & st & r & l2 & st' & l3 & -> & H)|(st' & -> & H & u & st & r & (l1 & l2 & ->)%elem_of_list_split)].
    + exists l1, u, st, r, l2, st', (l3 ++ [e]). split; [|done]. rewrite <- !app_assoc. cbn. rewrite <- !app_assoc. done.
    + exists l1, u, st, r, l2, st', []. split; [|done]. rewrite <- !app_assoc. done.
Qed.
Lemma sent_header k u st r l : UHeader (Some k) u st r ∈ l <-> UHeader (Some k) u st r ∈ sent_by k l.
Proof. unfold sent_by. rewrite elem_of_list_filter. cbn. tauto. Qed.

(** Whose event it is. *)
Definition concerns (e : uev) : option wid := match e with UAsked k _ => Some k | _ => made_by e end.
Lemma wrap_ok_other k x l e : concerns e <> Some k -> wrap_ok k x l -> wrap_ok k x (l ++ [e]).
Proof.
  intros He [H1 H2 H3 H4 H5 H6].
  assert (Hs : sent_by k (l ++ [e]) = sent_by k l).
  { rewrite sent_by_app, sent_by_other, app_nil_r; [done|]. destruct e; cbn in *; congruence. }
  constructor; rewrite ?Hs; try done. rewrite H6, asked_twice_snoc. split; [tauto|]. intros [?|[?|(st' & -> & _)]]; [tauto..|]. done.
Qed.
Lemma winv_note w v e k x x' :
  winv w -> v_objs w !! k = Some (WWrap x) -> concerns e = Some k -> wrap_ok k x' (v_log w ++ [e]) ->
  winv (note (put_obj w k x') v e).
Proof.
  intros [H1 H2] Hk He Hok. assert (Hlt : (k < length (v_objs w))%nat) by (by eapply lookup_lt_Some). split; cbn.
  - intros k2 x2. destruct (decide (k2 = k)) as [->|Hne].
    + rewrite list_lookup_insert by done. by intros [= <-].
    + rewrite list_lookup_insert_ne by done. intros Hk2. apply wrap_ok_other; [congruence|]. by apply H1.
  - rewrite insert_length. apply Forall_app. split; [done|]. constructor; [|done]. destruct e; simplify_eq/=; done.
Qed.
Lemma winv_put w k x x' :
  winv w -> v_objs w !! k = Some (WWrap x) -> wrap_ok k x' (v_log w) -> winv (put_obj w k x').
Proof.
  intros [H1 H2] Hk Hok. assert (Hlt : (k < length (v_objs w))%nat) by (by eapply lookup_lt_Some). split; cbn.
  - intros k2 x2. destruct (decide (k2 = k)) as [->|Hne].
    + rewrite list_lookup_insert by done. by intros [= <-].
    + rewrite list_lookup_insert_ne by done. apply H1.
  - by rewrite insert_length.
Qed.
Lemma winv_none w v e : concerns e = None -> winv w -> winv (note w v e).
Proof.
  intros He [H1 H2]. split; cbn; [intros k x Hk; apply wrap_ok_other; [congruence|auto]|]. apply Forall_app. split; [done|]. constructor; [|done].
  destruct e; simplify_eq/=; done.
Qed.
Lemma wgrow_note w v e : wgrow w (note w v e).
Proof. split; [by exists [e]|]. split; [cbn; lia|]. split; [done|]. intros k x Hk. exists x. eauto 10. Qed.
Lemma wgrow_put w k x x' :
  v_objs w !! k = Some (WWrap x) ->
  ww_kind x' = ww_kind x -> ww_next x' = ww_next x -> ww_isHEAD x' = ww_isHEAD x -> (ww_status x <> 0 -> ww_status x' = ww_status x) ->
  (ww_sawError x = true -> ww_sawError x' = true) -> wgrow w (put_obj w k x').
Proof.
  intros Hk HA HB HC HD HF. assert (Hlt : (k < length (v_objs w))%nat) by (by eapply lookup_lt_Some).
  split; [exists []; cbn; by rewrite app_nil_r|]. split; [cbn; by rewrite insert_length|]. split; cbn.
  - intros k2 o Ho Hn. rewrite list_lookup_insert_ne; [done|]. intros ->. assert (o = WWrap x) by congruence. by eapply Hn.
  - intros k2 x2 Hk2. destruct (decide (k2 = k)) as [->|Hne].
    + rewrite list_lookup_insert by done. exists x'. assert (x2 = x) as -> by congruence. eauto 10.
    + rewrite list_lookup_insert_ne by done. exists x2. eauto 10.
Qed.

Lemma put_note w k x v e : note (put_obj w k x) v e = put_obj (note w v e) k x.
Proof. done. Qed.
Lemma put_same w k x : v_objs w !! k = Some (WWrap x) -> put_obj w k x = w.
Proof. intros H. unfold put_obj. rewrite list_insert_id by done. by destruct w. Qed.

(** Adding one event of wrapper [k] and changing the wrapper accordingly. *)
Lemma wrap_ok_push k x l u url r : u = ww_next x -> wrap_ok k x l -> wrap_ok k x (l ++ [UPush (Some k) u url r]).
Proof.
  intros Hu [H1 H2 (pre & post & H3 & H3p & H3q) H4 H5 H6].
  constructor; rewrite ?sent_by_app, ?(sent_by_own k (UPush _ _ _ _)) by done; try done.
  - apply Forall_app. split; [done|]. by constructor.
  - destruct post as [|e rest]; [exists (pre ++ [UPush (Some k) u url r]), []|exists pre, (e :: rest ++ [UPush (Some k) u url r])].
    + rewrite app_nil_r in *. rewrite H3. split; [done|]. split; [apply Forall_app; split; [done|by constructor]|done].
    + rewrite H3. split; [by rewrite <- app_assoc|]. split; [done|]. destruct e; try done. destruct H3q as (? & ? & ?). split; [done|]. split; [done|].
      apply Forall_app. split; [done|]. constructor; [by intros []|done].
  - rewrite H4. unfold total_accepted. rewrite map_app, foldr_app. done.
  - intros Hd. apply Forall_app. split; [auto|]. constructor; [by intros []|done].
  - rewrite H6, asked_twice_snoc, Exists_app, Exists_cons, Exists_nil. cbn. split; [tauto|]. intros [[?|[[]|[]]]|[?|(? & ? & _)]]; try tauto; done.
Qed.

(** The common part of the three lemmas below: an event other than a header, sent
    after the header. *)
Lemma wrap_ok_shape k x x' l e :
  made_by e = Some k -> ~ is_header e -> ww_status x <> 0 -> ww_status x' = ww_status x ->
  (exists pre post, sent_by k l = pre ++ post /\ Forall is_push pre /\
     match post with
     | [] => ww_status x = 0
     | UHeader _ _ st _ :: rest => ww_status x = st /\ 100 <= st <= 999 /\ Forall (fun e => ~ is_header e) rest
     | _ => False
     end) ->
  exists pre post, sent_by k (l ++ [e]) = pre ++ post /\ Forall is_push pre /\
     match post with
     | [] => ww_status x' = 0
     | UHeader _ _ st _ :: rest => ww_status x' = st /\ 100 <= st <= 999 /\ Forall (fun e => ~ is_header e) rest
     | _ => False
     end.
Proof.
  intros He Hh Hst Hst' (pre & post & H3 & H3p & H3q). rewrite sent_by_app, (sent_by_own _ _ He).
  destruct post as [|e0 rest]; [done|]. exists pre, (e0 :: rest ++ [e]). rewrite H3, <- app_assoc. split; [done|]. split; [done|].
  destruct e0; try done. destruct H3q as (? & ? & ?). rewrite Hst'. split; [done|]. split; [done|]. apply Forall_app. split; [done|]. by constructor.
Qed.
Lemma total_snoc l e : total_accepted (l ++ [e]) = total_accepted l + accepted e.
Proof.
  unfold total_accepted. rewrite map_app, foldr_app. cbn. rewrite Z.add_0_r. induction (map accepted l) as [|a l' IH]; cbn; lia.
Qed.
Lemma wrap64_add a b : wrap64 (wrap64 a + b) = wrap64 (a + b).
Proof. unfold wrap64. f_equal. replace ((a + 2 ^ 63) mod 2 ^ 64 - 2 ^ 63 + b + 2 ^ 63) with ((a + 2 ^ 63) mod 2 ^ 64 + b) by lia. rewrite Z.add_mod_idemp_l by lia. f_equal. lia. Qed.
Lemma wrap64_twice a : wrap64 (wrap64 a) = wrap64 a.
Proof. pose proof (wrap64_add a 0) as H. by rewrite !Z.add_0_r in H. Qed.
Lemma wrap64_0 : wrap64 0 = 0.
Proof. done. Qed.

Lemma wrap_ok_header k x l u st r :
  u = ww_next x -> ww_status x = 0 -> 100 <= st <= 999 -> wrap_ok k x l -> wrap_ok k (with_status x st) (l ++ [UHeader (Some k) u st r]).
Proof.
  intros Hu Hst Hr [H1 H2 (pre & post & H3 & H3p & H3q) H4 H5 H6].
  assert (post = []) as ->. { destruct post as [|[] ?]; try done. lia. }
  rewrite app_nil_r in H3.
  constructor; rewrite ?sent_by_app, ?(sent_by_own k (UHeader _ _ _ _)) by done; cbn; try done.
  - apply Forall_app. split; [done|]. by constructor.
  - exists pre, [UHeader (Some k) u st r]. rewrite H3. done.
  - by rewrite total_snoc, H4, Z.add_0_r.
  - intros _. rewrite H3. apply Forall_app. split; [|constructor; [by intros []|done]]. eapply Forall_impl; [done|]. intros [] ?; try done; by intros [].
  - rewrite H6, asked_twice_snoc, Exists_app, Exists_cons, Exists_nil. cbn. split; [tauto|]. intros [[?|[[]|[]]]|[?|(? & ? & _)]]; try tauto; done.
Qed.
Lemma wrap_ok_asked k x l st x' :
  wrap_ok k x l ->
  x' = (if (100 <=? st) && (st <=? 999) && negb (ww_status x =? 0) then with_sawError x else x) ->
  wrap_ok k x' (l ++ [UAsked k st]).
Proof.
  intros [H1 H2 (pre & post & H3 & H3p & H3q) H4 H5 H6] ->.
  assert (Hs : sent_by k (l ++ [UAsked k st]) = sent_by k l) by (rewrite sent_by_app, sent_by_other, app_nil_r; done).
  assert (Hhd : ww_status x <> 0 <-> exists u st r, UHeader (Some k) u st r ∈ l).
  { setoid_rewrite sent_header. rewrite H3. split.
    - intros Hne. destruct post as [|[] rest]; try done. destruct H3q as (? & ? & ?).
      assert (by_ = Some k) as ->. { assert (Hin : UHeader by_ u status res ∈ sent_by k l) by (rewrite H3; set_solver). unfold sent_by in Hin. by apply elem_of_list_filter in Hin as [? _]. }
      eexists _, _, _. apply elem_of_app. right. left.
    - intros (u & st0 & r & [Hin|Hin]%elem_of_app); [rewrite Forall_forall in H3p; by apply H3p in Hin|].
      destruct post as [|[] rest]; try done; [by apply not_elem_of_nil in Hin|]. lia. }
  assert (Ha : asked_twice k (l ++ [UAsked k st]) <-> asked_twice k l \/ (100 <= st <= 999 /\ ww_status x <> 0)).
  { rewrite asked_twice_snoc, Hhd. split; intros [?|H]; [by left| |by left|]; right.
    - destruct H as (st' & [= <-] & ? & ?). done.
    - exists st. naive_solver. }
  destruct (_ && _ && _) eqn:Hc; constructor; rewrite ?Hs; try done; cbn; try (by exists pre, post); rewrite Ha.
  - split; [|done]. intros _. right. right. lia.
  - rewrite H6. split; [tauto|]. intros [?|[?|?]]; [tauto|tauto|]. lia.
Qed.
Lemma wrap_ok_flush k x l u r : u = ww_next x -> ww_status x <> 0 -> wrap_ok k x l -> wrap_ok k x (l ++ [UFlush (Some k) u r]).
Proof.
  intros Hu Hst [H1 H2 H3 H4 H5 H6].
  constructor; rewrite ?sent_by_app, ?(sent_by_own k (UFlush _ _ _)) by done; cbn; try done.
  - apply Forall_app. split; [done|]. by constructor.
  - rewrite <- (sent_by_own k (UFlush (Some k) u r)), <- sent_by_app by done. eapply wrap_ok_shape; try done. by intros [].
  - by rewrite total_snoc, H4, Z.add_0_r.
  - intros Hd. apply Forall_app. split; [auto|]. constructor; [by intros []|done].
  - rewrite H6, asked_twice_snoc, Exists_app, Exists_cons, Exists_nil. cbn. split; [tauto|]. intros [[?|[[]|[]]]|[?|(? & ? & _)]]; try tauto; done.
Qed.
Definition counted (x : wrapper) (n : Z) : wrapper := if n <? 0 then x else with_bytes x (wrap64 (ww_bytes x + n)).
Lemma wrap_ok_data k x l e x' :
  wrap_ok k x l -> made_by e = Some k -> is_data e ->
  match e with UWrite _ u _ _ | UReadFrom _ u _ | UReadFromEnd _ u _ => u = ww_next x | _ => False end ->
  ww_status x <> 0 -> is_dead x = false ->
  x' = (let y := with_bytes x (wrap64 (ww_bytes x + accepted e)) in
        match e with UWrite _ _ _ (inl (n, Some _)) => if n <? 0 then y else with_sawError y | _ => y end) ->
  wrap_ok k x' (l ++ [e]).
Proof.
  intros [H1 H2 H3 H4 H5 H6] He Hd Hu Hst Hal ->.
  assert (Hb : forall y, (y = with_bytes x (wrap64 (ww_bytes x + accepted e)) /\ ~ write_failed e \/ y = with_sawError (with_bytes x (wrap64 (ww_bytes x + accepted e))) /\ write_failed e) -> wrap_ok k y (l ++ [e])).
  { intros y Hy. assert (Hy' : ww_kind y = ww_kind x /\ ww_next y = ww_next x /\ ww_status y = ww_status x /\ ww_isHEAD y = ww_isHEAD x /\ ww_bytes y = wrap64 (ww_bytes x + accepted e))
      by (destruct Hy as [[-> _]|[-> _]]; done).
    destruct Hy' as (HA & HB & HC & HD & HE).
    constructor; rewrite ?sent_by_app, ?(sent_by_own k e) by done.
    - unfold good_caps. by rewrite HA, HB.
    - rewrite HB. apply Forall_app. split; [done|]. constructor; [|done]. by destruct e.
    - rewrite <- (sent_by_own k e), <- sent_by_app by done. eapply wrap_ok_shape; try done. intros Hx; by destruct e.
    - by rewrite HE, total_snoc, H4, wrap64_add.
    - unfold is_dead in *. rewrite HC, HD, Hal. done.
    - rewrite asked_twice_snoc, Exists_app, Exists_cons, Exists_nil.
      assert (Hna : ~ exists st', e = UAsked k st' /\ 100 <= st' <= 999 /\ (exists u st r, UHeader (Some k) u st r ∈ l)) by (intros (? & -> & _); done).
      destruct Hy as [[-> Hn]|[-> Hn]]; cbn; [rewrite H6|]; naive_solver. }
  apply Hb. destruct e as [| |by_ u p [[n [err|]]|pn]| | | |]; cbn; try done; try (by left; split; [done|]; intros []).
  destruct (n <? 0) eqn:Hn; [left|right]; (split; [done|]); lia.
Qed.

(** ** The methods *)
Ltac wunf H := unfold wbind, wassert, wret, wpanic, wget, wput in H.
Lemma MaybeWriteHeader_run k st w :
  wrap_MaybeWriteHeader U k st w =
  (if (100 <=? st) && (st <=? 999) then
    match v_objs w !! k with
    | Some (WWrap x) => if ww_status x =? 0 then
        let w1 := put_obj w k (with_status x st) in
        let '(v, r) := u_writeheader U (v_v w) (ww_next x) st in (note w1 v (UHeader (Some k) (ww_next x) st r), opt_panic r)
        else (w, inl tt)
    | _ => (w, inr PNil) end
   else (w, inr PAssert)).
Proof.
  unfold wrap_MaybeWriteHeader, wbind, wassert, wret, wpanic, wget, wput.
  replace (st >=? 100) with (100 <=? st) by lia. destruct (100 <=? st), (st <=? 999); cbn; try done.
  destruct (v_objs w !! k) as [[| |x]|] eqn:Hk; try done. destruct (ww_status x =? 0) eqn:Hs; cbn; [|done].
  unfold writeHeaderImpl, wbind, wget, wput. rewrite Hk. unfold raw_WriteHeader. cbn. destruct (u_writeheader _ _ _ _); done.
Qed.
Lemma header_step w k x v st r :
  winv w -> v_objs w !! k = Some (WWrap x) -> ww_status x = 0 -> 100 <= st <= 999 ->
  winv (note (put_obj w k (with_status x st)) v (UHeader (Some k) (ww_next x) st r)) /\
  wgrow w (note (put_obj w k (with_status x st)) v (UHeader (Some k) (ww_next x) st r)).
Proof.
  intros Hi Hk Hs Hr. split.
  - eapply winv_note; [done|done|done|]. apply wrap_ok_header; try done. by apply Hi.
  - rewrite put_note. eapply wgrow_trans; [apply wgrow_note|]. by eapply wgrow_put.
Qed.
Lemma wok_Maybe k st : wok (wrap_MaybeWriteHeader U k st).
Proof.
  intros w Hi. rewrite MaybeWriteHeader_run. destruct (_ && _) eqn:Hr; [|by apply wstep_refl].
  destruct (v_objs w !! k) as [[| |x]|] eqn:Hk; try (by apply wstep_refl). destruct (ww_status x =? 0) eqn:Hs; [|by apply wstep_refl].
  cbv zeta. destruct (u_writeheader _ _ _ _) as [v r]. cbn [fst]. apply header_step; try done; lia.
Qed.
(** After a successful MaybeWriteHeader there is a status. *)
Lemma Maybe_status k st w w' a :
  wrap_MaybeWriteHeader U k st w = (w', inl a) -> exists x, v_objs w' !! k = Some (WWrap x) /\ ww_status x <> 0.
Proof.
  rewrite MaybeWriteHeader_run. destruct (_ && _) eqn:Hr; [|done]. destruct (v_objs w !! k) as [[| |x]|] eqn:Hk; try done.
  destruct (ww_status x =? 0) eqn:Hs; [|intros [= <- _]; exists x; split; [done|lia]].
  cbv zeta. destruct (u_writeheader _ _ _ _) as [v r]. destruct r; [done|]. intros [= <- _]. cbn.
  rewrite list_lookup_insert by (by eapply lookup_lt_Some). exists (with_status x st). split; [done|]. cbn. lia.
Qed.
Lemma wok_WriteHeader k st : forall w, (exists x, v_objs w !! k = Some (WWrap x)) -> wstep w (wrap_WriteHeader U k st w).1.
Proof.
  intros w [x Hk] Hi.
  set (w1 := note w (v_v w) (UAsked k st)).
  assert (Hk1 : v_objs w1 !! k = Some (WWrap x)) by done.
  assert (Hgen : winv (put_obj w1 k (if (100 <=? st) && (st <=? 999) && negb (ww_status x =? 0) then with_sawError x else x)) /\
     wgrow w (put_obj w1 k (if (100 <=? st) && (st <=? 999) && negb (ww_status x =? 0) then with_sawError x else x))).
  { split.
    - unfold w1. rewrite <- put_note. eapply winv_note; [done|done|done|]. eapply wrap_ok_asked; [|done]. by apply Hi.
    - eapply wgrow_trans; [apply wgrow_note|]. eapply wgrow_put; [done|..]; by destruct (_ && _ && _). }
  unfold wrap_WriteHeader. unfold wbind at 1. cbn [wnote]. fold w1. unfold wbind, wassert, wget, wput, wret, wpanic.
  replace (st >=? 100) with (100 <=? st) by lia.
  destruct (100 <=? st) eqn:Ha; cbn; [|by rewrite put_same in Hgen].
  destruct (st <=? 999) eqn:Hb; cbn; [|by rewrite put_same in Hgen].
  rewrite Hk. destruct (ww_status x =? 0) eqn:Hs; cbn; [|done].
  cbn in Hgen. rewrite put_same in Hgen by done.
  unfold writeHeaderImpl, wbind, wget, wput. cbn [v_objs w1 note]. rewrite Hk. unfold raw_WriteHeader. cbn. destruct (u_writeheader _ _ _ _) as [v r]. cbn.
  destruct Hgen as [Hi1 Hg1]. destruct (header_step w1 k x v st r Hi1 Hk1) as [Hi2 Hg2]; [lia|lia|]. split; [done|]. by eapply wgrow_trans.
Qed.

Lemma wok_Write k p : wok (wrap_Write U k p).
Proof.
  intros w. unfold wrap_Write. unfold wbind at 1. pose proof (wok_Maybe k StatusOK w) as H1.
  pose proof (Maybe_status k StatusOK w) as H2. destruct (wrap_MaybeWriteHeader _ _ _ _) as [w1 [[]|e]]; [|done].
  destruct (H2 w1 tt eq_refl) as (x & Hk & Hs). cbn [fst] in H1. eapply wstep_trans; [exact H1|]. clear H1 H2.
  unfold wbind at 1. unfold wget at 1. rewrite Hk.
  destruct (ww_isHEAD x || _) eqn:Hd; [apply wstep_refl|].
  unfold wbind at 1. unfold raw_Write at 1. destruct (ev_write _ _ _ _) as [v r]. destruct r as [[n err]|e].
  2:{ cbn. intros Hi. split; [|apply wgrow_note]. rewrite <- (put_same w1 k x Hk). eapply winv_note; [done|done|done|].
      eapply wrap_ok_data; try done. { by apply Hi. } cbn. rewrite Z.add_0_r. destruct Hi as [Hi _]. destruct (Hi _ _ Hk) as [_ _ _ Hb _ _].
      rewrite Hb, wrap64_twice, <- Hb. by destruct x. }
  unfold wassert, wbind, wret, wpanic, wget, wput. destruct (n >=? 0) eqn:Hn; cbn; intros Hi.
  - rewrite Hk. cbn.
    assert (Hok : wrap_ok k (match err with Some _ => with_sawError (with_bytes x (wrap64 (ww_bytes x + n))) | None => with_bytes x (wrap64 (ww_bytes x + n)) end)
       (v_log w1 ++ [UWrite (Some k) (ww_next x) p (inl (n, err))])).
    { eapply wrap_ok_data; try done; [by apply Hi|]. cbn. replace (n <? 0) with false by lia. by destruct err. }
    split.
    + rewrite <- put_note. eapply winv_note; done.
    + eapply wgrow_trans; [apply wgrow_note|]. eapply wgrow_put; [done|..]; by destruct err.
  - split; [|apply wgrow_note]. rewrite <- (put_same w1 k x Hk). eapply winv_note; [done|done|done|].
    eapply wrap_ok_data; try done. { by apply Hi. } cbn. replace (n <? 0) with true by lia. rewrite Z.add_0_r. destruct Hi as [Hi _]. destruct (Hi _ _ Hk) as [_ _ _ Hb _ _].
    rewrite Hb, wrap64_twice, <- Hb. destruct x, err; done.
Qed.
Lemma wok_Push k url : wok (wrap_Push U k url).
Proof.
  intros w Hi. unfold wrap_Push, wbind, wget. destruct (v_objs w !! k) as [[| |x]|] eqn:Hk; try (by apply wstep_refl).
  destruct (wc_pusher _); [|by apply wstep_refl]. unfold raw_Push. destruct (u_push _ _ _ _) as [v r]. cbn. split; [|apply wgrow_note].
  rewrite <- (put_same w k x Hk). eapply winv_note; [done|done|done|]. apply wrap_ok_push; [done|]. by apply Hi.
Qed.
Lemma wok_Flush k : wok (wrap_Flush U k).
Proof.
  intros w. unfold wrap_Flush. unfold wbind at 1. pose proof (wok_Maybe k StatusOK w) as H1.
  pose proof (Maybe_status k StatusOK w) as H2. destruct (wrap_MaybeWriteHeader _ _ _ _) as [w1 [[]|e]]; [|done].
  destruct (H2 w1 tt eq_refl) as (x & Hk & Hs). cbn [fst] in H1. eapply wstep_trans; [exact H1|]. clear H1 H2.
  unfold wbind at 1. unfold wget at 1. rewrite Hk. destruct (wc_flusher _); [|apply wstep_refl]. intros Hi.
  unfold raw_Flush. destruct (u_flush _ _ _) as [v r]. cbn. split; [|apply wgrow_note].
  rewrite <- (put_same w1 k x Hk). eapply winv_note; [done|done|done|]. apply wrap_ok_flush; try done. by apply Hi.
Qed.
Lemma wok_raw w v e : concerns e = None -> wstep w (note w v e).
Proof. intros He Hi. split; [by apply winv_none|apply wgrow_note]. Qed.
Lemma wok_any_Write k p : wok (any_Write U k p).
Proof.
  intros w. unfold any_Write. destruct (v_objs w !! k) as [[|u|x]|] eqn:Hk; [apply wstep_refl| |apply wok_Write|apply wstep_refl].
  unfold raw_Write. destruct (ev_write _ _ _ _) as [v r]. by apply wok_raw.
Qed.

(** ** Bodies *)
Lemma wok_act {A} (a : act A) h h' x : act_step (wenv U) h a = Some (h', x) -> wstep (h_w h) (h_w h').
Proof.
  intros Ha. destruct a; cbn in Ha; repeat case_match; simplify_eq/=; try apply wstep_refl; try apply put_v_ok.
  match goal with H : any_Write U ?a ?b ?c = _ |- _ => pose proof (wok_any_Write a b c) as Hw; rewrite H in Hw end. done.
Qed.
Lemma wok_run {A} (m : prog A) h : wstep (h_w h) (h_w (run (wenv U) h m).1).
Proof.
  revert h. induction m as [a|e| |X a k IH]; intros h; try apply wstep_refl. cbn [run].
  destruct (act_step (wenv U) h a) as [[h' x]|] eqn:Ha; [|apply wstep_refl].
  eapply wstep_trans; [|apply IH]. by eapply wok_act.
Qed.
Lemma wok_xrun {A} (m : prog A) h : wstep (h_w h) (h_w (xrun (wenv U) (whazard U) h m).1).
Proof.
  apply (xrun_world U wstep); [intros ?; apply wstep_refl|intros ? ? ?; apply wstep_trans|intros; by eapply wok_act|intros; apply put_v_ok].
Qed.
Lemma mok_heap {A} (m : prog A) : mok (on_heap U m).
Proof. intros s. unfold on_heap, wR, world. pose proof (wok_run m (s_h s)) as H. destruct (run _ _ _). done. Qed.
Lemma mok_body c : mok (body_cmd U fuel c).
Proof. intros s. unfold body_cmd, uexec, xexec, wR, world. pose proof (wok_xrun (cmd_prog fuel (s_h s) c) (s_h s)) as H. destruct (xrun _ _ _ _). done. Qed.
Lemma mok_call b f : mok (body_call U fuel b f).
Proof. apply pres_bind; [apply _|by apply pres_of_opt; apply _|]. intros i. apply mok_body. Qed.

(** ** Everything else a program can do *)
Lemma still {A} (m : M A) : (forall s, world (m s).1 = world s) -> mok m.
Proof. intros H s. unfold wR. rewrite H. apply wstep_refl. Qed.
Lemma w_put_map m x : mok (put_map m x). Proof. by apply still. Qed.
Lemma w_make_map x : mok (make_map x). Proof. by apply still. Qed.
Lemma w_make_slice l n : mok (make_slice l n). Proof. by apply still. Qed.
Lemma w_append_to v x : mok (append_to U v x).
Proof. apply still. intros s. unfold append_to. destruct (sl_arr v); [destruct (_ <? _)%nat|]; done. Qed.
Lemma w_copyStrings v : mok (copyStrings v).
Proof. apply still. intros s. unfold copyStrings. destruct (_ =? _)%nat; done. Qed.
Lemma w_set_bd m x : mok (set_bd m x). Proof. by apply still. Qed.
Lemma w_make_bd x : mok (make_bd x). Proof. by apply still. Qed.
Lemma w_make_rp x : mok (make_rp x). Proof. by apply still. Qed.
Lemma w_met x : mok (met x). Proof. by apply still. Qed.
Local Hint Resolve w_put_map w_make_map w_make_slice w_append_to w_copyStrings w_set_bd w_make_bd w_make_rp w_met
  mok_heap mok_body mok_call mok_outside : pres.
Lemma w_copy_entries l dst : mok (copy_entries l dst).
Proof. revert dst. induction l as [|[key v] l IH]; intros dst; cbn; pres_go. Qed.
Local Hint Resolve w_copy_entries : pres.
Lemma w_copyHeaders o : mok (copyHeaders o).
Proof. unfold copyHeaders. pres_go. Qed.
Lemma w_copyBody o : mok (copyBody U fuel o).
Proof. unfold copyBody. pres_go. Qed.
Lemma w_hdr_Set m key v : mok (hdr_Set m key v).
Proof. unfold hdr_Set. pres_go. Qed.
Lemma w_hdr_Add m key v : mok (hdr_Add U m key v).
Proof. unfold hdr_Add. pres_go. Qed.
Lemma w_hdr_Del m key : mok (hdr_Del m key).
Proof. unfold hdr_Del. pres_go. Qed.
Local Hint Resolve w_copyHeaders w_copyBody w_hdr_Set w_hdr_Add w_hdr_Del : pres.
Lemma w_gen_redirect g c l : mok (gen_redirect U g c l).
Proof. unfold gen_redirect, default_redirect. pres_go. Qed.
Lemma w_gen_error g c l : mok (gen_error U g c l).
Proof. unfold gen_error, default_error. pres_go. Qed.
Lemma w_bd_Headers b : mok (bd_Headers b).
Proof. unfold bd_Headers. pres_go. Qed.
Lemma w_fill_in m key v : mok (fill_in m key v).
Proof. unfold fill_in. pres_go. Qed.
Local Hint Resolve w_gen_redirect w_gen_error w_bd_Headers w_fill_in : pres.
Lemma w_bd_do b f : mok (bd_do U b f).
Proof.
  destruct f; cbn [bd_do];
    unfold bd_WithPageGenerator, bd_WithStatus, bd_WithHeaders, bd_WithHeader, bd_WithoutHeader, bd_WithContentType, bd_WithContentLanguage,
      bd_WithContentEncoding, bd_WithETag, bd_WithDigest, bd_WithBody, bd_WithJSON, bd_WithPrettyJSON, bd_WithProto, bd_WithProtoText,
      bd_encoded, bd_WithError, bd_RedirectPage, bd_ErrorPage; cbv zeta; pres_go.
Qed.
Lemma w_bd_Copy b : mok (bd_Copy U fuel b).
Proof. unfold bd_Copy. pres_go. Qed.
Lemma w_bd_Build b : mok (bd_Build U fuel b).
Proof. unfold bd_Build. cbv zeta. pres_go. Qed.
Lemma w_h_do f : mok (h_do U f).
Proof. destruct f; cbn [h_do]; cbv zeta; pres_go. by apply still. Qed.
Lemma w_NewWriter (k : option wid) b : mok (NewWriter U k b).
Proof.
  intros s. unfold NewWriter, wR. destruct k as [k|]; [|apply wstep_refl]. fold (world s).
  destruct (v_objs (world s) !! k) as [[|u|x]|]; try apply wstep_refl. cbn. intros [H1 H2].
  match goal with |- context [WWrap ?y] => set (x := y) end. split; [split|]; cbn.
  - intros k2 x2 [Hk|[Hlen Hk]]%lookup_app_Some; [by apply H1|]. apply list_lookup_singleton_Some in Hk as [Hk [= <-]].
    assert (Hk2 : k2 = length (v_objs (world s))) by lia.
    assert (Hs : sent_by k2 (v_log (world s)) = []).
    { unfold sent_by. apply elem_of_nil_inv. intros e [Hm He]%elem_of_list_filter. rewrite Forall_forall in H2. specialize (H2 e He). rewrite Hm in H2. destruct e; try done; lia. }
    constructor; rewrite ?Hs; try done.
    + unfold good_caps, x. cbn. destruct (is_fancy _) eqn:Hf; [done|]. destruct (wc_flusher _) eqn:Hfl; done.
    + exists [], []. done.
    + split; [done|]. intros [?%Exists_nil|(l1 & u1 & st & r & l2 & st' & l3 & Heq & _)]; [done|]. exfalso.
      rewrite Forall_forall in H2. specialize (H2 (UHeader (Some k2) u1 st r)). cbn in H2. feed specialize H2; [rewrite Heq; set_solver|]. lia.
  - eapply Forall_impl; [done|]. intros e He. rewrite app_length. destruct e; cbn in *; try (destruct by_; [|done]); lia.
  - split; [exists []; by rewrite app_nil_r|]. cbn. rewrite app_length. split; [lia|].
    split; [intros k2 o Ho _; by apply lookup_app_l_Some|]. intros k2 y Hy. exists y. split; [by apply lookup_app_l_Some|]. done.
Qed.
Local Hint Resolve w_bd_do w_bd_Copy w_bd_Build w_h_do w_NewWriter : pres.
Lemma w_any_Write k p : mok (on_writer (any_Write U k p)).
Proof. apply mok_writer, wok_any_Write. Qed.
Lemma w_Maybe k st : mok (on_writer (wrap_MaybeWriteHeader U k st)).
Proof. apply mok_writer, wok_Maybe. Qed.
Lemma w_readfrom_loop n u b last : mok (readfrom_loop U fuel n u b last).
Proof.
  revert last. induction n as [|n IH]; intros last; cbn [readfrom_loop]; [pres_go|]. intros s. cbv zeta. destruct (u_readfrom _ _ _ _) as [v [f|ans]]; cbn.
  - set (s1 := put_h s _). assert (Hs1 : wR s s1) by apply put_v_ok. etrans; [exact Hs1|]. pose proof (mok_call b f s1) as H.
    destruct (body_call U fuel b f s1) as [s2 [r|e|]]; cbn in H; [etrans; [exact H|apply IH]..|done].
  - apply put_v_ok.
Qed.
Lemma w_log_u e : concerns e = None -> mok (log_u e).
Proof. intros He s. unfold log_u, wR. cbn. by apply wok_raw. Qed.
Lemma w_lookup_wrap k : mok (lookup_wrap k).
Proof. unfold lookup_wrap. pres_go. Qed.
Local Hint Resolve w_any_Write w_Maybe w_readfrom_loop w_lookup_wrap : pres.
Lemma w_raw_ReadFrom u b : mok (raw_ReadFrom U fuel None u b).
Proof. unfold raw_ReadFrom. pres_go; by apply w_log_u. Qed.
Lemma w_discard_loop n b buf t : mok (discard_loop U fuel n b buf t).
Proof. revert buf t. induction n as [|n IH]; intros; cbn [discard_loop]; cbv zeta; pres_go. Qed.
Lemma w_copy_loop n k b buf t : mok (copy_loop U fuel n k b buf t).
Proof.
  revert buf t. induction n as [|n IH]; intros; cbn [copy_loop]; cbv zeta; pres_go. intros s. destruct (slice _ _ _); reflexivity.
Qed.
Lemma w_write_to k b : mok (write_to U fuel k b).
Proof. unfold write_to. pres_go. Qed.
Local Hint Resolve w_raw_ReadFrom w_discard_loop w_copy_loop w_write_to : pres.
Lemma w_copy_discard b : mok (copy_discard U fuel b).
Proof. unfold copy_discard. pres_go. Qed.
Local Hint Resolve w_copy_discard : pres.
Lemma bytes_same k x w : winv w -> v_objs w !! k = Some (WWrap x) -> x = with_bytes x (wrap64 (ww_bytes x + 0)).
Proof.
  intros Hi Hk. destruct Hi as [Hi _]. destruct (Hi _ _ Hk) as [_ _ _ Hb _ _]. rewrite Z.add_0_r, Hb, wrap64_twice, <- Hb. by destruct x.
Qed.
Lemma w_wrap_ReadFrom k b : mok (wrap_ReadFrom U fuel k b).
Proof.
  intros s. unfold wrap_ReadFrom. unfold ybind at 1. pose proof (w_Maybe k StatusOK s) as H1. unfold on_writer in *.
  pose proof (Maybe_status k StatusOK (world s)) as H2. unfold world in H2. destruct (wrap_MaybeWriteHeader U k StatusOK _) as [w1 [[]|e]]; [|done].
  destruct (H2 w1 tt eq_refl) as (x & Hk & Hs). cbn [fst] in H1. set (s1 := put_h s _) in *. etrans; [exact H1|]. clear H1 H2.
  unfold lookup_wrap at 1. unfold ybind at 1. unfold ybind at 1. unfold lookup_w at 1. change (h_w (s_h s1)) with w1. rewrite Hk. unfold yret at 1.
  destruct (ww_isHEAD x || _) eqn:Hd; [apply w_copy_discard|].
  destruct (negb _); [apply (wstep_refl (world s1))|].
  unfold raw_ReadFrom at 1. unfold ybind at 1. unfold ybind at 1. unfold of_opt. destruct b as [i|]; [|apply (wstep_refl (world s1))].
  unfold yret at 1. unfold ybind at 1. unfold log_u at 1. set (s2 := put_h s1 _).
  assert (H12 : wR s1 s2).
  { intros Hi. unfold s2, world. cbn. split; [|apply wgrow_note]. rewrite <- (put_same w1 k x Hk). eapply winv_note; [done|done|done|].
    eapply wrap_ok_data; try done; [by apply Hi|]. cbn. by eapply bytes_same. }
  etrans; [exact H12|]. assert (Hk2 : v_objs (world s2) !! k = Some (WWrap x)) by done. clearbody s2. clear H12 s1 s w1 Hk.
  unfold ybind at 1. pose proof (w_readfrom_loop fuel (ww_next x) (Some i) None s2) as H3.
  destruct (readfrom_loop _ _ _ _ _ _ _) as [s3 [ans|e|]]; [|done|done]. cbn [fst] in H3. 
  intros Hi2. destruct (H3 Hi2) as [Hi3 Hg3]. destruct Hg3 as (Hlog & Hlen & Hraw & Hw). destruct (Hw k x Hk2) as (x3 & Hk3 & HA & HB & HC & HD & HF).
  assert (Hs3 : ww_status x3 <> 0) by (rewrite HD; done).
  assert (Hd3 : is_dead x3 = false) by (unfold is_dead; rewrite HC, HD; done).
  assert (Hg : wgrow (world s2) (world s3)) by done. clear Hlog Hlen Hraw Hw H3 HD HF.
  match goal with |- winv (world (fst ?t)) /\ _ => remember t as res eqn:Hres end.
  unfold ybind at 1 in Hres. unfold log_u in Hres. set (w3 := h_w (s_h s3)) in *.
  set (e := UReadFromEnd (Some k) (ww_next x) ans).
  assert (Hgen : forall y, y = with_bytes x3 (wrap64 (ww_bytes x3 + accepted e)) ->
     winv (note (put_obj w3 k y) (v_v w3) e) /\ wgrow (world s2) (note (put_obj w3 k y) (v_v w3) e)).
  { intros y ->. split.
    - eapply winv_note; [done|done|done|]. eapply wrap_ok_data; try done. by apply Hi3.
    - eapply wgrow_trans; [exact Hg|]. rewrite put_note. eapply wgrow_trans; [apply wgrow_note|]. by eapply wgrow_put. }
  assert (Hsame : accepted e = 0 -> winv (note w3 (v_v w3) e) /\ wgrow (world s2) (note w3 (v_v w3) e)).
  { intros He0. rewrite <- (put_same w3 k x3 Hk3). apply Hgen. rewrite He0. by eapply bytes_same. }
  destruct ans as [[n err]|pe]; [|subst res; by apply Hsame]. unfold yret at 1 in Hres. unfold ybind at 1 in Hres.
  unfold massert in Hres. destruct (n >=? 0) eqn:Hn.
  2:{ subst res. unfold mpanic. apply Hsame. cbn. by replace (n <? 0) with true by lia. }
  unfold yret at 1 in Hres. unfold ybind at 1 in Hres. unfold lookup_wrap, lookup_w in Hres. unfold ybind at 1 in Hres. cbn [s_h put_h h_w heap_w v_objs note] in Hres.
  change (world s3) with w3 in Hk3. rewrite Hk3 in Hres. unfold yret in Hres. subst res. cbn.
  rewrite <- put_note. apply Hgen. cbn. by replace (n <? 0) with false by lia.
Qed.
Lemma w_raw_WriteHeader u st : mok (on_writer (raw_WriteHeader U None u st)).
Proof. apply mok_writer. intros w. unfold raw_WriteHeader. destruct (u_writeheader _ _ _ _). by apply wok_raw. Qed.
Lemma w_raw_Push u st : mok (on_writer (raw_Push U None u st)).
Proof. apply mok_writer. intros w. unfold raw_Push. destruct (u_push _ _ _ _). by apply wok_raw. Qed.
Lemma w_raw_Flush u : mok (on_writer (raw_Flush U None u)).
Proof. apply mok_writer. intros w. unfold raw_Flush. destruct (u_flush _ _ _). by apply wok_raw. Qed.
Lemma w_wrap_Push k url : mok (on_writer (wrap_Push U k url)).
Proof. apply mok_writer, wok_Push. Qed.
Lemma w_wrap_Flush k : mok (on_writer (wrap_Flush U k)).
Proof. apply mok_writer, wok_Flush. Qed.
Local Hint Resolve w_wrap_ReadFrom w_raw_WriteHeader w_raw_Push w_raw_Flush w_wrap_Push w_wrap_Flush : pres.
Lemma w_any_WriteHeader k st : mok (any_WriteHeader U k st).
Proof.
  intros s. unfold any_WriteHeader, ybind, lookup_w. fold (world s). destruct (v_objs (world s) !! k) as [[|u|x]|] eqn:Hk; try reflexivity; [apply w_raw_WriteHeader|].
  pose proof (wok_WriteHeader k st (world s) (ex_intro _ x Hk)) as H. unfold on_writer, wR, world in *. destruct (wrap_WriteHeader _ _ _ _) as [w [?|?]]; done.
Qed.
Lemma w_any_Push k url : mok (any_Push U k url).
Proof. unfold any_Push. pres_go. Qed.
Lemma w_any_ReadFrom k b : mok (any_ReadFrom U fuel k b).
Proof. unfold any_ReadFrom. pres_go. Qed.
Local Hint Resolve w_any_WriteHeader w_any_Push w_any_ReadFrom : pres.
Lemma w_io_Copy k b : mok (io_Copy U fuel k b).
Proof. unfold io_Copy. pres_go. Qed.
Lemma w_push_all k l : mok (push_all U k l).
Proof. induction l; cbn [push_all]; pres_go. Qed.
Lemma w_copy_to m x : mok (copy_to m x).
Proof. unfold copy_to. cbv zeta. pres_go. Qed.
Lemma w_rp_Copy x : mok (rp_Copy U fuel x).
Proof. unfold rp_Copy. pres_go. Qed.
Local Hint Resolve w_io_Copy w_push_all w_copy_to w_rp_Copy : pres.
Lemma w_rp_Serve x k : mok (rp_Serve U fuel x k).
Proof. unfold rp_Serve. pres_go. Qed.
Lemma w_w_do k f : mok (w_do U fuel k f).
Proof. unfold w_do. pres_go. Qed.
Local Hint Resolve w_rp_Serve w_w_do : pres.
Lemma w_rdo c : mok (rdo U fuel c).
Proof. destruct c; cbn [rdo]; unfold NewBuilder; pres_go. Qed.
Lemma w_mets l : mok (mets l).
Proof. induction l; cbn [mets]; pres_go. Qed.
Local Hint Resolve w_rdo w_mets : pres.
Lemma w_run_handler f s : wR s (run_handler U fuel f s).1.
Proof.
  revert s. induction f as [[r|]|[e|]|c k IH]; intros s; cbn [run_handler]; try reflexivity.
  - destruct (s_rps s !! r); reflexivity.
  - pose proof (w_rdo c s) as H. destruct (rdo U fuel c s) as [s1 [r|e|]]; cbn in H; [etrans; [exact H|apply IH]..|done].
Qed.
Lemma w_defer ww pv : mok (adaptor_defer U ww pv).
Proof. unfold adaptor_defer. cbv zeta. pres_go. Qed.
Lemma w_ServeHTTP f (k : option wid) b : mok (ServeHTTP U fuel f k b).
Proof.
  intros s. unfold ServeHTTP. pose proof (w_NewWriter k b s) as H1. destruct (NewWriter U k b s) as [s1 [ww|e|]]; cbn in H1; [|done|done].
  etrans; [exact H1|]. pose proof (w_run_handler f s1) as H2. destruct (run_handler U fuel f s1) as [s2 [[x|e|]|[]]]; cbn in H2.
  - etrans; [exact H2|]. pose proof (w_rp_Serve x ww s2) as H3. destruct (rp_Serve U fuel x ww s2) as [s3 [[e|]|e|]]; cbn in H3; try done; (etrans; [exact H3|apply w_defer]).
  - etrans; [exact H2|apply w_defer].
  - done.
  - etrans; [exact H2|apply w_defer].
Qed.
Lemma w_texec c : mok (texec U fuel c).
Proof. destruct c; cbn [texec]; [apply w_rdo|]. apply pres_bind; [apply _|apply w_ServeHTTP|]. intros. pres_go. Qed.
Lemma w_history s cs : wR s (thistory U fuel s cs).1.
Proof.
  revert s. induction cs as [|c cs IH]; intros s; cbn [thistory]; [reflexivity|]. pose proof (w_texec c s) as H1.
  destruct (texec U fuel c s) as [s1 o]; cbn in H1. specialize (IH s1). destruct (thistory U fuel s1 cs) as [s2 os]. cbn in IH.
  destruct o; cbn; [by etrans..|done].
Qed.
Lemma winv_initial v n maps arrs : winv (world (tinitial v n maps arrs)).
Proof.
  split; [|by constructor]. intros k x. cbn. intros Hk. exfalso. destruct k as [|k]; [done|]. cbn in Hk. apply list_lookup_fmap_inv in Hk as (? & ? & ?). done.
Qed.
Theorem treaches_winv s : treaches U fuel s -> winv (world s).
Proof.
  intros (v & n & maps & arrs & cs & os & _ & H). pose proof (w_history (tinitial v n maps arrs) cs) as Hw. rewrite H in Hw.
  by destruct (Hw (winv_initial v n maps arrs)).
Qed.
End Writer.
