(** * Programs that share no slices: each Builder and Response has its header to itself *)
From stdpp Require Import gmap.
From Coq Require Import ZifyBool.
From Verif Require Import BuilderSpec RespFacts HdrFacts.

Section Tidy.
Context {V : Type} (U : uenv V) (fuel : nat).
Implicit Types (s : state V).

Record T s : Prop := {
  t_lt : forall m key a, array_of s m key = Some a -> (a < length (s_arrs s))%nat;
  t_one : distinct s;
  t_gen : forall (b : nat) x, s_bds s !! b = Some x -> bd_gen x = None;
  t_bd : forall (b : nat) x m, s_bds s !! b = Some x -> bd_hdrs x = Some m -> (m < length (s_maps s))%nat;
  t_rp : forall (r : nat) y m, s_rps s !! r = Some y -> rp_hdrs y = Some m -> (m < length (s_maps s))%nat;
  t_bds : forall (b b' : nat) x x' m, s_bds s !! b = Some x -> s_bds s !! b' = Some x' -> bd_hdrs x = Some m -> bd_hdrs x' = Some m -> b = b';
  t_rps : forall (b r : nat) x y m, s_bds s !! b = Some x -> s_rps s !! r = Some y -> bd_hdrs x = Some m -> rp_hdrs y <> Some m }.
Definition tR s s' : Prop := T s -> T s'.
Global Instance tR_refl : Reflexive tR.
Proof. intros s H. exact H. Qed.
Global Instance tR_trans : Transitive tR.
Proof. intros s1 s2 s3 H1 H2 H. apply H2, H1, H. Qed.
Notation tok := (pres tR).

(** Calls with a property of the state before, and of the value and the state after. *)
Definition tri {A} (P : state V -> Prop) (m : M (V:=V) A) (Q : A -> state V -> Prop) : Prop :=
  forall s, P s -> T (m s).1 /\ forall a, (m s).2 = ORet a -> Q a (m s).1.
Lemma tri_bind {A B} P (m : M A) (k : A -> M B) Q Q' : tri P m Q -> (forall a, tri (Q a) (k a) Q') -> tri P (ybind m k) Q'.
Proof.
  intros Hm Hk s Hs. unfold ybind. destruct (Hm s Hs) as (H1 & H2). destruct (m s) as [s' [a|e|]]; cbn in *; [|done|done].
  apply (Hk a s' (H2 a eq_refl)).
Qed.
Lemma tri_any {A} (m : M A) : tok m -> tri T m (fun _ => T).
Proof. intros H s Hs. split; [by apply H|]. intros a _. by apply H. Qed.
Lemma tok_of {A} (m : M A) Q : tri T m Q -> tok m.
Proof. intros H s Hs. by apply (H s Hs). Qed.
Lemma tri_pre {A} (P P' : state V -> Prop) (m : M A) Q : (forall s, P s -> P' s) -> tri P' m Q -> tri P m Q.
Proof. intros H Hm s Hs. by apply Hm, H. Qed.
Lemma tri_ret {A} (P : state V -> Prop) (Q : A -> state V -> Prop) (a : A) : (forall s, P s -> T s /\ Q a s) -> tri P (yret a) Q.
Proof. intros H s Hs. destruct (H s Hs). split; [done|]. by intros ? [= <-]. Qed.
Lemma tri_panic {A} (P : state V -> Prop) e (Q : A -> state V -> Prop) : (forall s, P s -> T s) -> tri P (mpanic e) Q.
Proof. intros H s Hs. split; [by apply H|done]. Qed.

(** ** Header maps *)
(** The array of [v] is that of entry [key] of map [m] at most. *)
Definition only s (v : slice_) (m : mid) (key : string) : Prop :=
  forall a, sl_arr v = Some a -> (a < length (s_arrs s))%nat /\ forall m' key', array_of s m' key' = Some a -> m' = m /\ key' = key.
Lemma array_put s (m : mid) x m' key' :
  array_of (put_maps s (<[m := x]> (s_maps s))) m' key' =
  if decide (m' = m /\ (m < length (s_maps s))%nat) then match x !! key' with Some v => sl_arr v | None => None end else array_of s m' key'.
Proof.
  unfold array_of. cbn. destruct (decide (m' = m /\ _)) as [[-> H]|H].
  - by rewrite list_lookup_insert.
  - destruct (decide (m' = m)) as [->|Hne]; [|by rewrite list_lookup_insert_ne]. rewrite list_insert_ge by lia. done.
Qed.
Lemma T_put s (m : mid) x x' :
  T s -> s_maps s !! m = Some x ->
  (forall key v a, x' !! key = Some v -> sl_arr v = Some a ->
     (a < length (s_arrs s))%nat /\ (forall m' key', array_of s m' key' = Some a -> m' = m) /\
     (forall key' v', x' !! key' = Some v' -> sl_arr v' = Some a -> key' = key)) ->
  T (put_maps s (<[m := x']> (s_maps s))).
Proof.
  intros [H1 H2 H3 H4 H5 H6 H7] Hm Hx. assert (Hlt : (m < length (s_maps s))%nat) by (by eapply lookup_lt_Some).
  split; cbn; try done.
  - intros m' key a. rewrite array_put. destruct (decide _) as [_|_]; [|eauto]. destruct (x' !! key) as [v|] eqn:Hk; [|done]. intros Ha. by eapply Hx.
  - intros m1 k1 m2 k2 a. rewrite !array_put. destruct (decide (m1 = m /\ _)) as [[-> _]|D1]; destruct (decide (m2 = m /\ _)) as [[-> _]|D2]; [..|eauto].
    + destruct (x' !! k1) as [v1|] eqn:K1; [|done]. destruct (x' !! k2) as [v2|] eqn:K2; [|done]. intros A1 A2. split; [done|]. symmetry. by eapply (Hx k1).
    + destruct (x' !! k1) as [v1|] eqn:K1; [|done]. intros A1 A2. destruct (Hx k1 v1 a K1 A1) as (_ & Hu & _). apply Hu in A2. destruct D2. lia.
    + destruct (x' !! k2) as [v2|] eqn:K2; [|done]. intros A1 A2. destruct (Hx k2 v2 a K2 A2) as (_ & Hu & _). apply Hu in A1. destruct D1. lia.
  - intros b y m0 Hb Hh. rewrite insert_length. eauto.
  - intros b y m0 Hb Hh. rewrite insert_length. eauto.
Qed.
Lemma T_insert s (m : mid) x key v : T s -> s_maps s !! m = Some x -> only s v m key -> T (put_maps s (<[m := <[key := v]> x]> (s_maps s))).
Proof.
  intros HT Hm Hv. eapply T_put; [done|done|]. intros k w a. rewrite lookup_insert_Some. intros [[<- <-]|[Hne Hk]] Ha.
  - destruct (Hv a Ha) as [Hlt Hu]. split; [done|]. split; [intros m' k' Hz; by apply Hu in Hz as [? _]|]. intros k' v'. rewrite lookup_insert_Some. intros [[<- _]|[Hne Hk']] Ha'; [done|].
    assert (Hz : array_of s m k' = Some a) by (unfold array_of; rewrite Hm; by rewrite Hk'). by apply Hu in Hz as [_ ?].
  - assert (Hz : array_of s m k = Some a) by (unfold array_of; rewrite Hm; by rewrite Hk).
    split; [by eapply (t_lt _ HT)|]. split.
    + intros m' k' Hz'. destruct (t_one _ HT m k m' k' a Hz Hz'). done.
    + intros k' v'. rewrite lookup_insert_Some. intros [[<- <-]|[Hne' Hk']] Ha'.
      * destruct (Hv a Ha') as [_ Hu]. apply Hu in Hz as [_ Hz]. done.
      * assert (Hz' : array_of s m k' = Some a) by (unfold array_of; rewrite Hm; by rewrite Hk'). by destruct (t_one _ HT m k m k' a Hz Hz').
Qed.
Lemma T_delete s (m : mid) x key : T s -> s_maps s !! m = Some x -> T (put_maps s (<[m := delete key x]> (s_maps s))).
Proof.
  intros HT Hm. eapply T_put; [done|done|]. intros k w a. rewrite lookup_delete_Some. intros [Hne Hk] Ha.
  assert (Hz : array_of s m k = Some a) by (unfold array_of; rewrite Hm; by rewrite Hk). split; [by eapply (t_lt _ HT)|]. split.
  - intros m' k' Hz'. destruct (t_one _ HT m k m' k' a Hz Hz'). done.
  - intros k' v'. rewrite lookup_delete_Some. intros [Hne' Hk'] Ha'.
    assert (Hz' : array_of s m k' = Some a) by (unfold array_of; rewrite Hm; by rewrite Hk'). by destruct (t_one _ HT m k m k' a Hz Hz').
Qed.
Lemma T_arrs s arrs : T s -> (length (s_arrs s) <= length arrs)%nat -> T (put_arrs s arrs).
Proof.
  intros [H1 H2 H3 H4 H5 H6 H7] Hl. split; try done. cbn. intros m key a Ha. specialize (H1 m key a Ha). lia.
Qed.
(** Holding map [m]'s value [x], and [v] for its entry [key] *)
Definition with_map (m : mid) x s : Prop := T s /\ s_maps s !! m = Some x.
Definition with_slice (m : mid) x key v s : Prop := T s /\ s_maps s !! m = Some x /\ only s v m key.
Lemma tri_the_map m : tri T (the_map m) (fun x => with_map m x).
Proof. intros s Hs. unfold the_map. destruct (s_maps s !! m) eqn:Hm; cbn; [|done]. split; [done|]. intros a [= <-]. by split. Qed.
Lemma fresh_only s m key l n : T s -> only (make_slice l n s).1 {| sl_arr := Some (length (s_arrs s)); sl_off := 0; sl_len := length l; sl_cap := length l + n |} m key.
Proof.
  intros HT a [= <-]. cbn. rewrite app_length. cbn. split; [lia|]. intros m' key' Ha.
  assert (Ha' : array_of s m' key' = Some (length (s_arrs s))) by exact Ha. apply (t_lt _ HT) in Ha'. lia.
Qed.
Lemma tri_make_slice (m : mid) x key l n : tri (with_map m x) (make_slice l n) (fun v => with_slice m x key v).
Proof.
  intros s [HT Hm]. assert (HT' : T (make_slice l n s).1). { apply T_arrs; [done|]. rewrite app_length. lia. }
  split; [done|]. intros v [= <-]. split; [done|]. split; [done|]. by apply fresh_only.
Qed.
Lemma tri_append_to (m : mid) x key value : tri (with_map m x) (append_to U (default nil_slice (x !! key)) value) (fun v => with_slice m x key v).
Proof.
  intros s [HT Hm]. unfold append_to. set (v := default nil_slice (x !! key)). destruct (sl_arr v) as [a|] eqn:Ha.
  - assert (Hz : array_of s m key = Some a). { unfold array_of. rewrite Hm. unfold v in Ha. by destruct (x !! key). }
    destruct (sl_len v <? sl_cap v)%nat; [|by apply tri_make_slice].
    assert (HT' : T (put_arrs s (<[a := <[(sl_off v + sl_len v)%nat := value]> (default [] (s_arrs s !! a))]> (s_arrs s)))).
    { apply T_arrs; [done|]. by rewrite insert_length. }
    split; [exact HT'|]. intros w [= <-]. split; [exact HT'|]. split; [exact Hm|]. intros a' Ha'. cbn in Ha'. injection Ha' as <-. cbn. rewrite insert_length.
    split; [by eapply (t_lt _ HT)|]. intros m' key' Hz'. by destruct (t_one _ HT m key m' key' a Hz Hz').
  - by apply (tri_make_slice m x key).
Qed.
Lemma tri_put (m : mid) x key v : tri (with_slice m x key v) (put_map m (<[key := v]> x)) (fun _ => T).
Proof. intros s (HT & Hm & Hv). assert (H := T_insert s m x key v HT Hm Hv). split; [exact H|]. intros _ _. exact H. Qed.
Lemma t_hdr_Set m key value : tok (hdr_Set m key value).
Proof.
  eapply tok_of. unfold hdr_Set. eapply tri_bind; [apply tri_the_map|]. intros x. eapply tri_bind; [apply tri_make_slice|]. intros v. apply tri_put.
Qed.
Lemma t_hdr_Add m key value : tok (hdr_Add U m key value).
Proof.
  eapply tok_of. unfold hdr_Add. eapply tri_bind; [apply tri_the_map|]. intros x. eapply tri_bind; [apply tri_append_to|]. intros v. apply tri_put.
Qed.
Lemma t_hdr_Del m key : tok (hdr_Del m key).
Proof.
  eapply (tok_of _ (fun _ => T)). unfold hdr_Del. eapply tri_bind; [apply tri_the_map|]. intros x s [HT Hm]. assert (H := T_delete s m x (CanonicalHeaderKey key) HT Hm).
  split; [exact H|]. intros _ _. exact H.
Qed.
Lemma t_fill_in m key value : tok (fill_in m key value).
Proof.
  eapply (tok_of _ (fun _ => T)). unfold fill_in. eapply tri_bind; [apply tri_the_map|]. intros x. destruct (x !! key); [apply tri_ret; by intros ? []|].
  eapply tri_bind; [apply tri_make_slice|]. intros v. apply tri_put.
Qed.
Lemma t_h_do f : match f with HShare _ _ _ _ => False | _ => True end -> tok (h_do U f).
Proof.
  intros Hf. destruct f; cbn [h_do]; try done.
  - eapply tok_of. eapply tri_bind; [apply tri_the_map|]. intros x. eapply tri_bind; [apply tri_make_slice|]. intros v. apply tri_put.
  - eapply (tok_of _ (fun _ => T)). eapply tri_bind; [apply tri_the_map|]. intros x. cbv zeta. destruct (sl_arr _) as [a|] eqn:Ha; [|apply tri_panic; by intros ? []].
    destruct (_ <? _)%nat; [|apply tri_panic; by intros ? []]. intros s [HT Hm].
    assert (HT' : T (put_arrs s (<[a := <[(sl_off (default nil_slice (x !! key)) + i)%nat := value]> (default [] (s_arrs s !! a))]> (s_arrs s)))).
    { apply T_arrs; [done|]. by rewrite insert_length. }
    split; [exact HT'|]. intros _ _. exact HT'.
  - eapply tok_of. eapply tri_bind; [apply tri_the_map|]. intros x. eapply tri_bind; [apply tri_append_to|]. intros v. apply tri_put.
  - eapply (tok_of _ (fun _ => T)). eapply tri_bind; [apply tri_the_map|]. intros x. cbv zeta. destruct (_ && _); [|apply tri_panic; by intros ? []]. intros s [HT Hm].
    apply (tri_put m x key). split; [done|]. split; [done|]. intros a Ha. cbn in Ha.
    assert (Hz : array_of s m key = Some a). { unfold array_of. rewrite Hm. by destruct (x !! key). }
    split; [by eapply (t_lt _ HT)|]. intros m' key' Hz'. by destruct (t_one _ HT m key m' key' a Hz Hz').
  - eapply (tok_of _ (fun _ => T)). eapply tri_bind; [apply tri_the_map|]. intros x s [HT Hm]. assert (H := T_delete s m x key HT Hm).
    split; [exact H|]. intros _ _. exact H.
Qed.
(** A map nobody has. *)
Definition free (m : option mid) s : Prop :=
  forall m0, m = Some m0 -> (m0 < length (s_maps s))%nat /\
    (forall (b : nat) x, s_bds s !! b = Some x -> bd_hdrs x <> Some m0).
Definition unused (m : option mid) s : Prop :=
  T s /\ free m s /\ forall m0 (r : nat) y, m = Some m0 -> s_rps s !! r = Some y -> rp_hdrs y <> Some m0.
(** The entries of a map being filled *)
Definition filling (dst : gmap string slice_) s : Prop :=
  T s /\ forall key v a, dst !! key = Some v -> sl_arr v = Some a -> (a < length (s_arrs s))%nat /\
    (forall m' key', array_of s m' key' <> Some a) /\ (forall key' v', dst !! key' = Some v' -> sl_arr v' = Some a -> key' = key).
Lemma tri_copy_entries l (dst : gmap string slice_) : tri (filling dst) (copy_entries l dst) (fun d => filling d).
Proof.
  revert dst. induction l as [|[key v] l IH]; intros dst; cbn [copy_entries]; [apply tri_ret; intros s [? ?]; by split|].
  eapply tri_bind; [|intros w; apply IH]. intros s [HT Hd]. unfold copyStrings. destruct (_ =? _)%nat eqn:Hl.
  - split; [done|]. intros w [= <-]. split; [done|]. intros k u a. rewrite lookup_insert_Some. intros [[<- <-]|[Hne Hk]] Ha; [done|].
    destruct (Hd k u a Hk Ha) as (D1 & D2 & D3). split; [done|]. split; [done|]. intros k' v'. rewrite lookup_insert_Some. intros [[<- <-]|[Hne' Hk']]; [done|]. by apply D3.
  - set (c := contents_of (s_arrs s) v). assert (HT' : T (make_slice c 0 s).1). { apply T_arrs; [done|]. rewrite app_length. lia. }
    split; [exact HT'|]. intros w [= <-]. split; [exact HT'|]. intros k u a. rewrite lookup_insert_Some. cbn. rewrite app_length. cbn.
    intros [[<- <-]|[Hne Hk]] Ha.
    + cbn in Ha. injection Ha as <-. split; [lia|]. split.
      * intros m' key' Hz. assert (Hz' : array_of s m' key' = Some (length (s_arrs s))) by exact Hz. apply (t_lt _ HT) in Hz'. lia.
      * intros k' v'. rewrite lookup_insert_Some. intros [[<- _]|[Hne' Hk']]; [done|]. intros Ha. destruct (Hd _ _ _ Hk' Ha) as [D1 _]. lia.
    + destruct (Hd k u a Hk Ha) as (D1 & D2 & D3). split; [lia|]. split; [exact D2|]. intros k' v'. rewrite lookup_insert_Some. intros [[<- <-]|[Hne' Hk']].
      * cbn. intros [= <-]. lia.
      * by apply D3.
Qed.
Lemma T_new s x : filling x s -> T (put_maps s (s_maps s ++ [x])).
Proof.
  intros [[H1 H2 H3 H4 H5 H6 H7] Hx].
  assert (Ha : forall (m' : mid) key', array_of (put_maps s (s_maps s ++ [x])) m' key' =
    if decide (m' = length (s_maps s)) then match x !! key' with Some v => sl_arr v | None => None end else array_of s m' key').
  { intros m' key'. unfold array_of. cbn. destruct (decide _) as [->|Hne].
    - rewrite lookup_app_r, Nat.sub_diag by done. done.
    - destruct (decide (m' < length (s_maps s))%nat); [by rewrite lookup_app_l|]. unfold mid in *. rewrite (lookup_ge_None_2 (s_maps s)) by lia.
      rewrite lookup_ge_None_2; [done|]. rewrite app_length. cbn. lia. }
  split; cbn; try done.
  - intros m' key a. rewrite Ha. destruct (decide _); [|eauto]. destruct (x !! key) as [v|] eqn:Hk; [|done]. intros E. by eapply Hx.
  - intros m1 k1 m2 k2 a. rewrite !Ha. destruct (decide (m1 = _)) as [->|D1]; destruct (decide (m2 = _)) as [->|D2]; [..|eauto].
    + destruct (x !! k1) as [v1|] eqn:K1; [|done]. destruct (x !! k2) as [v2|] eqn:K2; [|done]. intros A1 A2. split; [done|]. symmetry. by eapply (Hx k1).
    + destruct (x !! k1) as [v1|] eqn:K1; [|done]. intros A1 A2. destruct (Hx k1 v1 a K1 A1) as (_ & Hu & _). by apply Hu in A2.
    + destruct (x !! k2) as [v2|] eqn:K2; [|done]. intros A1 A2. destruct (Hx k2 v2 a K2 A2) as (_ & Hu & _). by apply Hu in A1.
  - intros b y m0 Hb Hh. rewrite app_length. specialize (H4 b y m0 Hb Hh). lia.
  - intros b y m0 Hb Hh. rewrite app_length. specialize (H5 b y m0 Hb Hh). lia.
Qed.
Lemma tri_make_map x : tri (filling x) (make_map x) (fun m => unused (Some m)).
Proof.
  intros s Hf. assert (H := T_new s x Hf). destruct Hf as [HT _]. split; [exact H|]. intros m [= <-]. split; [exact H|]. split.
  - intros m0 [= <-]. cbn. rewrite app_length. cbn. split; [lia|]. intros b y Hb Hh. pose proof (t_bd _ HT b y _ Hb Hh). lia.
  - intros m0 r y [= <-] Hr Hh. pose proof (t_rp _ HT r y _ Hr Hh). lia.
Qed.
Lemma filling_empty s : T s -> filling ∅ s.
Proof. intros H. split; [done|]. intros k v a Hk. by rewrite lookup_empty in Hk. Qed.
Lemma tri_make_empty : tri T (make_map ∅) (fun m => unused (Some m)).
Proof. eapply tri_pre; [apply filling_empty|apply tri_make_map]. Qed.
Lemma unused_None s : T s -> unused None s.
Proof. by split. Qed.
Lemma tri_copyHeaders o : tri T (copyHeaders o) (fun m => unused m).
Proof.
  unfold copyHeaders. destruct o as [m|]; [|apply tri_ret; intros s Hs; split; [done|by apply unused_None]].
  eapply (tri_bind _ _ _ (fun _ => T)); [eapply tri_any; by pres_go|]. intros x.
  destruct (bool_decide _); [apply tri_ret; intros s Hs; split; [done|by apply unused_None]|].
  eapply tri_bind; [eapply tri_pre; [apply filling_empty|apply tri_copy_entries]|]. intros d. eapply tri_bind; [apply tri_make_map|]. intros m'.
  apply tri_ret. intros s Hs. split; [by apply Hs|done].
Qed.

(** ** Builders and Responses *)
Definition holding (b : nat) x s : Prop := T s /\ s_bds s !! b = Some x.
Lemma tri_the_bd b : tri T (the_bd b) (fun x => holding b x).
Proof. intros s Hs. unfold the_bd. destruct (s_bds s !! b) eqn:Hm; cbn; [|done]. split; [done|]. intros a [= <-]. by split. Qed.
Lemma T_bd s (b : nat) x' :
  T s -> bd_gen x' = None ->
  (forall m, bd_hdrs x' = Some m -> (m < length (s_maps s))%nat /\ (forall (b' : nat) y, s_bds s !! b' = Some y -> bd_hdrs y = Some m -> b' = b) /\
     forall (r : nat) y, s_rps s !! r = Some y -> rp_hdrs y <> Some m) ->
  T (put_bds s (<[b := x']> (s_bds s))).
Proof.
  intros [H1 H2 H3 H4 H5 H6 H7] Hg Hx. split; cbn; try done.
  - intros b' y [(_ & <- & _)|[_ ?]]%list_lookup_insert_Some; eauto.
  - intros b' y m [(_ & <- & _)|[_ ?]]%list_lookup_insert_Some; [|eauto]. intros Hh. by apply Hx.
  - intros b1 b2 x1 x2 m. intros [(<- & <- & _)|[N1 L1]]%list_lookup_insert_Some [(<- & <- & _)|[N2 L2]]%list_lookup_insert_Some E1 E2; [done|..|eauto].
    + destruct (Hx m E1) as (_ & Hu & _). symmetry. by eapply Hu.
    + destruct (Hx m E2) as (_ & Hu & _). by eapply Hu.
  - intros b' r y z m [(_ & <- & _)|[_ ?]]%list_lookup_insert_Some Hr Hh; [|eauto]. destruct (Hx m Hh) as (_ & _ & Hu). by eapply Hu.
Qed.
(** The same header map, or none *)
Lemma tri_keep b x x' : (bd_gen x = None -> bd_gen x' = None) -> (bd_hdrs x' = None \/ bd_hdrs x' = bd_hdrs x) -> tri (holding b x) (set_bd b x') (fun _ => T).
Proof.
  intros Hg Hx s [HT Hb]. assert (HT' : T (set_bd b x' s).1).
  { apply T_bd; [done|by apply Hg, (t_gen _ HT b)|]. intros m Hm. destruct Hx as [Hx|Hx]; [congruence|]. rewrite Hx in Hm.
    split; [by eapply (t_bd _ HT)|]. split; [intros b' y Hb' Hy; by eapply (t_bds _ HT)|]. intros r y Hr. by eapply (t_rps _ HT). }
  split; [exact HT'|]. intros _ _. exact HT'.
Qed.
(** A header map nobody has *)
Lemma tri_take b x' : bd_gen x' = None -> tri (unused (bd_hdrs x')) (set_bd b x') (fun _ => T).
Proof.
  intros Hg s (HT & HF & HR). assert (HT' : T (set_bd b x' s).1).
  { apply T_bd; [done|done|]. intros m Hm. destruct (HF m Hm) as [Hlt Hno]. split; [done|]. split; [by intros b' y Hb' Hy%(Hno b' y)|]. intros r y Hr. by eapply HR. }
  split; [exact HT'|]. intros _ _. exact HT'.
Qed.
Lemma tri_new x' : bd_gen x' = None -> tri (unused (bd_hdrs x')) (make_bd x') (fun _ => T).
Proof.
  intros Hg s ([H1 H2 H3 H4 H5 H6 H7] & HF & HR). assert (HT' : T (make_bd x' s).1).
  { split; cbn; try done.
    - intros b' y [?|[_ [_ <-]%list_lookup_singleton_Some]]%lookup_app_Some; eauto.
    - intros b' y m [?|[_ [_ <-]%list_lookup_singleton_Some]]%lookup_app_Some Hm; [eauto|]. by apply HF.
    - intros b1 b2 x1 x2 m [L1|[N1 [Z1 <-]%list_lookup_singleton_Some]]%lookup_app_Some [L2|[N2 [Z2 <-]%list_lookup_singleton_Some]]%lookup_app_Some E1 E2; [eauto|..].
      + by destruct (proj2 (HF m E2) _ _ L1).
      + by destruct (proj2 (HF m E1) _ _ L2).
      + lia.
    - intros b r y z m [?|[_ [_ <-]%list_lookup_singleton_Some]]%lookup_app_Some Hr Hh; [eauto|]. by eapply HR. }
  split; [exact HT'|]. intros _ _. exact HT'.
Qed.

Lemma t_still {A} (m : M (V:=V) A) : (forall s, s_maps (m s).1 = s_maps s /\ s_arrs (m s).1 = s_arrs s /\ s_bds (m s).1 = s_bds s /\ s_rps (m s).1 = s_rps s) -> tok m.
Proof.
  intros H s [H1 H2 H3 H4 H5 H6 H7]. destruct (H s) as (E1 & E2 & E3 & E4).
  assert (Ha : forall m' key, array_of (m s).1 m' key = array_of s m' key) by (intros; unfold array_of; by rewrite E1).
  split; unfold distinct in *; setoid_rewrite Ha || idtac; rewrite ?E1, ?E2, ?E3, ?E4; done.
Qed.
Lemma t_met x : tok (met x). Proof. by apply t_still. Qed.
Lemma t_on_heap {A} (m : prog A) : tok (on_heap U m).
Proof. apply t_still. intros s. unfold on_heap. by destruct (run _ _ _). Qed.
Lemma t_body c : tok (body_cmd U fuel c).
Proof. apply t_still. intros s. unfold body_cmd. by destruct (uexec _ _ _ _). Qed.
Lemma t_on_writer {A} (m : wm A) : tok (on_writer m).
Proof. apply t_still. intros s. unfold on_writer. by destruct (m _). Qed.
Lemma t_outside {A} (m : V -> V * (A + panic)) : tok (outside m).
Proof. apply t_still. intros s. unfold outside. by destruct (m _). Qed.
Lemma t_call b f : tok (body_call U fuel b f).
Proof. apply pres_bind; [apply _|by apply pres_of_opt; apply _|]. intros i. apply t_body. Qed.
Lemma t_NewWriter k b : tok (NewWriter U k b).
Proof. apply t_still. intros s. unfold NewWriter. destruct k as [k|]; [|done]. destruct (_ !! _) as [[]|]; done. Qed.
Lemma t_log_u e : tok (log_u e). Proof. by apply t_still. Qed.
Local Hint Resolve t_met t_on_heap t_body t_on_writer t_outside t_call t_NewWriter t_log_u t_hdr_Set t_hdr_Add t_hdr_Del t_fill_in : pres.
Lemma tri_gen {A} b x (m : M (V:=V) A) Q : (bd_gen x = None -> tri T m Q) -> tri (holding b x) m Q.
Proof. intros H s [HT Hb]. apply H; [by eapply (t_gen _ HT)|done]. Qed.
Lemma t_bd_Headers b : tok (bd_Headers b).
Proof.
  eapply (tok_of _ (fun _ => T)). unfold bd_Headers. eapply tri_bind; [apply tri_the_bd|]. intros x. destruct (bd_hdrs x) as [m|] eqn:Hh; [apply tri_ret; by intros ? []|].
  apply tri_gen. intros Hg.
  eapply tri_bind; [apply tri_make_empty|]. intros m. eapply tri_bind; [by apply (tri_take b (bd_set_hdrs x (Some m)))|]. intros ?. by apply tri_ret.
Qed.
Lemma r_copyBody o : tok (copyBody U fuel o).
Proof. unfold copyBody. pres_go. Qed.
Local Hint Resolve t_bd_Headers r_copyBody : pres.
Lemma unused_still {A} (m : M (V:=V) A) o : (forall s, s_maps (m s).1 = s_maps s /\ s_arrs (m s).1 = s_arrs s /\ s_bds (m s).1 = s_bds s /\ s_rps (m s).1 = s_rps s) ->
  tri (unused o) m (fun _ => unused o).
Proof.
  intros H s (HT & HF & HR). assert (HT' := t_still m H s HT). split; [done|]. intros _ _. destruct (H s) as (E1 & E2 & E3 & E4).
  split; [done|]. unfold free. rewrite E1, E3, E4. done.
Qed.
Lemma unused_on_heap {A} (m : prog A) o : tri (unused o) (on_heap U m) (fun _ => unused o).
Proof. apply unused_still. intros s. unfold on_heap. by destruct (run _ _ _). Qed.
Lemma unused_hdr_Set o m key value : tri (unused o) (hdr_Set m key value) (fun _ => unused o).
Proof.
  intros s (HT & HF & HR). assert (HT' := t_hdr_Set m key value s HT). split; [done|]. intros [] E. split; [done|].
  unfold hdr_Set, ybind, the_map in *. destruct (s_maps s !! m); [|done]. cbn. split; [|done]. intros m0 Hm0. cbn. rewrite insert_length. by apply HF.
Qed.
Lemma tri_default_redirect c l : tri T (default_redirect U c l) (fun p => unused p.1).
Proof.
  unfold default_redirect. cbv zeta. eapply tri_bind; [apply tri_make_empty|]. intros m.
  repeat (eapply tri_bind; [apply unused_hdr_Set|]; intros ?).
  eapply tri_bind; [apply unused_on_heap|]. intros i. apply tri_ret. intros s Hs. split; [by apply Hs|done].
Qed.
Lemma tri_default_error c : tri T (default_error U c) (fun p => unused p.1).
Proof.
  unfold default_error. cbv zeta. eapply tri_bind; [apply tri_make_empty|]. intros m.
  repeat (eapply tri_bind; [apply unused_hdr_Set|]; intros ?).
  eapply tri_bind; [apply unused_on_heap|]. intros i. apply tri_ret. intros s Hs. split; [by apply Hs|done].
Qed.
Lemma t_bd_encoded b (mk : prog nat) ctype : tok (bd_encoded U b mk ctype).
Proof.
  unfold bd_encoded. apply pres_bind; [apply _|apply t_on_heap|]. intros i. eapply (tok_of _ (fun _ => T)).
  eapply tri_bind; [apply tri_the_bd|]. intros x. eapply tri_bind; [apply tri_keep; cbn; auto|]. intros ?. eapply tri_any. pres_go.
Qed.
Lemma hold_massert b x c : tri (holding b x) (massert c) (fun _ => holding b x).
Proof. intros s Hs. unfold massert. destruct c; cbn; (split; [by apply Hs|]); [|done]. by intros _ _. Qed.
Lemma t_bd_do b f : match f with WithPageGenerator _ => False | _ => True end -> tok (bd_do U b f).
Proof.
  intros Hf. destruct f; try done; cbn [bd_do].
  - eapply (tok_of _ (fun _ => T)). unfold bd_WithStatus. eapply tri_bind; [apply tri_the_bd|]. intros x.
    eapply tri_bind; [apply hold_massert|]. intros ?. eapply tri_bind; [apply hold_massert|]. intros ?. apply tri_keep; cbn; auto.
  - eapply (tok_of _ (fun _ => T)). unfold bd_WithHeaders. eapply tri_bind; [apply tri_the_bd|]. intros x. apply tri_gen. intros Hg.
    eapply tri_bind; [apply tri_copyHeaders|]. intros m. by apply (tri_take b (bd_set_hdrs x m)).
  - unfold bd_WithHeader. pres_go.
  - unfold bd_WithoutHeader. pres_go.
  - unfold bd_WithContentType. pres_go.
  - unfold bd_WithContentLanguage. pres_go.
  - unfold bd_WithContentEncoding. pres_go.
  - unfold bd_WithETag. cbv zeta. pres_go.
  - unfold bd_WithDigest. pres_go.
  - eapply (tok_of _ (fun _ => T)). unfold bd_WithBody. eapply tri_bind; [apply tri_the_bd|]. intros x. destruct i; [|apply tri_panic; by intros ? []]. apply tri_keep; cbn; auto.
  - apply t_bd_encoded.
  - apply t_bd_encoded.
  - apply t_bd_encoded.
  - apply t_bd_encoded.
  - eapply (tok_of _ (fun _ => T)). unfold bd_WithError. eapply tri_bind; [apply tri_the_bd|]. intros x. apply tri_keep; cbn; auto.
  - eapply (tok_of _ (fun _ => T)). unfold bd_RedirectPage. cbv zeta. do 3 (eapply tri_bind; [eapply tri_any; by pres_go|]; intros ?).
    eapply tri_bind; [apply tri_the_bd|]. intros x. apply tri_gen. intros Hg. rewrite Hg. cbn [gen_redirect].
    eapply tri_bind; [apply tri_default_redirect|]. intros [h i]. by apply (tri_take b {| bd_gen := _; bd_code := _; bd_hdrs := h; bd_body := _; bd_err := _ |}).
  - eapply (tok_of _ (fun _ => T)). unfold bd_ErrorPage. cbv zeta. do 2 (eapply tri_bind; [eapply tri_any; by pres_go|]; intros ?).
    destruct err as [err|]; [|by apply tri_panic].
    eapply tri_bind; [apply tri_the_bd|]. intros x. apply tri_gen. intros Hg. rewrite Hg. cbn [gen_error].
    eapply tri_bind; [apply tri_default_error|]. intros [h i]. by apply (tri_take b {| bd_gen := _; bd_code := _; bd_hdrs := h; bd_body := _; bd_err := _ |}).
Qed.
Lemma t_bd_Copy b : tok (bd_Copy U fuel b).
Proof.
  eapply (tok_of _ (fun _ => T)). unfold bd_Copy. eapply tri_bind; [apply tri_the_bd|]. intros x. apply tri_gen. intros Hg.
  eapply tri_bind; [eapply tri_any; by pres_go|]. intros [i err]. destruct err; [by apply tri_ret|].
  eapply tri_bind; [apply tri_copyHeaders|]. intros m. eapply tri_bind; [by apply (tri_new {| bd_gen := _; bd_code := _; bd_hdrs := m; bd_body := _; bd_err := _ |})|].
  intros b2. by apply tri_ret.
Qed.
(** Build hands the header map from the Builder to the Response. *)
Definition loose (m : mid) s : Prop := T s /\ free (Some m) s.
Lemma loose_still {A} (c : M (V:=V) A) m : (forall s, s_maps (c s).1 = s_maps s /\ s_arrs (c s).1 = s_arrs s /\ s_bds (c s).1 = s_bds s /\ s_rps (c s).1 = s_rps s) ->
  tri (loose m) c (fun _ => loose m).
Proof.
  intros H s (HT & HF). assert (HT' := t_still c H s HT). split; [done|]. intros _ _. destruct (H s) as (E1 & E2 & E3 & E4).
  split; [done|]. unfold free. rewrite E1, E3. done.
Qed.
Lemma loose_fill_in m key value : tri (loose m) (fill_in m key value) (fun _ => loose m).
Proof.
  intros s (HT & HF). assert (HT' := t_fill_in m key value s HT). split; [done|]. intros [] E. split; [done|].
  unfold fill_in, ybind, the_map in *. destruct (s_maps s !! m) as [x|]; [|done]. destruct (x !! key); cbn; [done|]. intros m0 Hm0. cbn. rewrite insert_length. by apply HF.
Qed.
Lemma tri_make_rp m y : rp_hdrs y = Some m -> tri (loose m) (make_rp y) (fun _ => T).
Proof.
  intros Hy s ([H1 H2 H3 H4 H5 H6 H7] & HF). destruct (HF m eq_refl) as [Hlt Hno]. assert (HT' : T (make_rp y s).1).
  { split; cbn; try done.
    - intros r z m' [?|[_ [_ <-]%list_lookup_singleton_Some]]%lookup_app_Some Hm; [eauto|]. by simplify_eq.
    - intros b r x z m' Hb [?|[_ [_ <-]%list_lookup_singleton_Some]]%lookup_app_Some Hm; [eauto|]. rewrite Hy. intros [= <-]. by eapply Hno. }
  split; [exact HT'|]. intros _ _. exact HT'.
Qed.
Lemma body_call_still b f s : let s' := (body_call U fuel b f s).1 in s_maps s' = s_maps s /\ s_arrs s' = s_arrs s /\ s_bds s' = s_bds s /\ s_rps s' = s_rps s.
Proof. unfold body_call, ybind, of_opt. destruct b as [i|]; [|done]. cbn. unfold body_cmd. by destruct (uexec _ _ _ _). Qed.
Lemma t_bd_Build b : tok (bd_Build U fuel b).
Proof.
  eapply (tok_of _ (fun _ => T)). unfold bd_Build. cbv zeta. eapply tri_bind; [apply tri_the_bd|]. intros x. eapply tri_bind; [apply hold_massert|]. intros ?.
  eapply (tri_bind _ _ _ (fun _ s => T s /\ forall m, bd_hdrs x = Some m -> free (Some m) s)).
  { intros s Hs. pose proof Hs as [HT Hb]. assert (HT' : T (set_bd b {| bd_gen := bd_gen x; bd_code := 0; bd_hdrs := None; bd_body := None; bd_err := None |} s).1).
    { apply (tri_keep b x _); cbn; auto. }
    split; [exact HT'|]. intros _ _. split; [exact HT'|]. intros m Hm m0 [= <-]. cbn. split; [by eapply (t_bd _ HT)|].
    intros b' y [(_ & <- & _)|[Hne Hy]]%list_lookup_insert_Some; [done|]. intros Hh. apply Hne. by eapply (t_bds _ HT). }
  intros ?. eapply (tri_bind _ _ _ (fun m => loose m)).
  { destruct (bd_hdrs x) as [m|]; [apply tri_ret; intros s [H1 H2]; split; [done|split; [done|by apply H2]]|].
    eapply tri_pre; [by intros s [H _]|]. intros s Hs. destruct (tri_make_empty s Hs) as [H1 H2]. split; [done|]. intros m Hm. destruct (H2 m Hm) as (? & ? & _). by split. }
  intros m. eapply tri_bind; [apply loose_fill_in|]. intros ?. eapply tri_bind; [apply loose_still; intros s; apply body_call_still|]. intros r.
  destruct r; try (apply tri_panic; by intros ? []).
  eapply (tri_bind _ _ _ (fun _ => loose m)).
  { destruct (_ >=? 0); [apply loose_fill_in|]. apply tri_ret. intros s Hs. split; [by apply Hs|done]. }
  intros ?. by apply tri_make_rp.
Qed.
Lemma t_rp_Copy r : tok (ybind (the_rp r) (rp_Copy U fuel)).
Proof.
  eapply (tok_of _ (fun _ => T)). eapply (tri_bind _ _ _ (fun y s => T s /\ s_rps s !! r = Some y)).
  { intros s Hs. unfold the_rp. destruct (s_rps s !! r) eqn:Hr; cbn; [|done]. split; [done|]. by intros y [= <-]. }
  intros y. unfold rp_Copy. eapply (tri_bind _ _ _ (fun _ s => T s /\ s_rps s !! r = Some y)).
  { intros s [HT Hr]. assert (HT' := r_copyBody (rp_body y) s HT). split; [done|]. intros _ _. split; [done|].
    unfold copyBody in *. destruct (rp_body y); [|done]. unfold body_cmd, ybind. by repeat case_match; simplify_eq/=. }
  intros [i err]. destruct err; [apply tri_ret; by intros ? []|]. eapply (tri_bind _ _ _ (fun _ => T)); [|intros r2; by apply tri_ret].
  intros s [[H1 H2 H3 H4 H5 H6 H7] Hr].
  assert (HT' : T (make_rp {| rp_code := rp_code y; rp_hdrs := rp_hdrs y; rp_body := i; rp_err := rp_err y |} s).1).
  { split; cbn; try done.
    - intros r' z m' [?|[_ [_ <-]%list_lookup_singleton_Some]]%lookup_app_Some Hm; [eauto|]. by eapply (H5 r).
    - intros b r' x z m' Hb [?|[_ [_ <-]%list_lookup_singleton_Some]]%lookup_app_Some Hm; [eauto|]. by eapply (H7 b r x y). }
  split; [exact HT'|]. intros _ _. exact HT'.
Qed.
(** Calls that touch neither Builders nor header maps *)
Lemma t_readfrom_loop n u b last : tok (readfrom_loop U fuel n u b last).
Proof.
  revert last. induction n as [|n IH]; intros last; cbn [readfrom_loop]; [pres_go|]. intros s. cbv zeta. destruct (u_readfrom _ _ _ _) as [v [f|ans]]; cbn.
  - set (s1 := put_h s _). assert (Hs1 : tR s s1) by (intros [? ? ? ? ?]; by split). etrans; [exact Hs1|]. pose proof (t_call b f s1) as H.
    destruct (body_call U fuel b f s1) as [s2 [r|e|]]; cbn in H; [etrans; [exact H|apply IH]..|exact H].
  - intros [? ? ? ? ?]. by split.
Qed.
Lemma t_lookup_wrap k : tok (lookup_wrap k).
Proof. unfold lookup_wrap. pres_go. Qed.
Local Hint Resolve t_readfrom_loop t_lookup_wrap : pres.
Lemma t_raw_ReadFrom by_ u b : tok (raw_ReadFrom U fuel by_ u b).
Proof. unfold raw_ReadFrom. pres_go. Qed.
Lemma t_discard_loop n b buf t : tok (discard_loop U fuel n b buf t).
Proof. revert buf t. induction n as [|n IH]; intros; cbn [discard_loop]; cbv zeta; pres_go. Qed.
Lemma t_write_to k b : tok (write_to U fuel k b).
Proof. unfold write_to. pres_go. Qed.
Local Hint Resolve t_raw_ReadFrom t_discard_loop t_write_to : pres.
Lemma t_copy_discard b : tok (copy_discard U fuel b).
Proof. unfold copy_discard. pres_go. Qed.
Local Hint Resolve t_copy_discard : pres.
Lemma t_wrap_ReadFrom k b : tok (wrap_ReadFrom U fuel k b).
Proof. unfold wrap_ReadFrom. pres_go. Qed.
Lemma t_any_WriteHeader k st : tok (any_WriteHeader U k st).
Proof. unfold any_WriteHeader. pres_go. Qed.
Lemma t_any_Push k url : tok (any_Push U k url).
Proof. unfold any_Push. pres_go. Qed.
Local Hint Resolve t_wrap_ReadFrom t_any_WriteHeader t_any_Push : pres.
Lemma t_any_ReadFrom k b : tok (any_ReadFrom U fuel k b).
Proof. unfold any_ReadFrom. pres_go. Qed.
Local Hint Resolve t_any_ReadFrom : pres.
Lemma t_w_do k f : tok (w_do U fuel k f).
Proof. unfold w_do. pres_go. Qed.
Local Hint Resolve t_w_do : pres.
Lemma t_rdo c : tidy c -> tok (rdo U fuel c).
Proof.
  intros Ht. destruct c; cbn [rdo tidy] in *; try done; try by pres_go.
  - apply pres_bind; [apply _|eapply tok_of, tri_make_empty|]. pres_go.
  - apply pres_bind; [apply _|by apply t_h_do|]. pres_go.
  - apply pres_bind; [apply _|eapply tok_of; eapply tri_pre; [apply unused_None|by apply (tri_new new_builder)]|]. pres_go.
  - apply pres_bind; [apply _|by apply t_bd_do; destruct f|]. pres_go.
  - apply pres_bind; [apply _|apply t_bd_Copy|]. pres_go.
  - apply pres_bind; [apply _|apply t_bd_Build|]. pres_go.
  - intros s. pose proof (t_rp_Copy r s) as H. unfold ybind in *. destruct (the_rp r s) as [s1 [y|e|]]; try done. cbn in *.
    destruct (rp_Copy U fuel y s1) as [s2 [[r2 err]|e|]]; done.
Qed.
Lemma t_history s cs : Forall tidy cs -> tR s (thistory U fuel s (map TDo cs)).1.
Proof.
  revert s. induction cs as [|c cs IH]; intros s Hcs; cbn [map thistory]; [reflexivity|]. apply Forall_cons in Hcs as [Hc Hcs].
  pose proof (t_rdo c Hc s) as H1. cbn [texec]. destruct (rdo U fuel c s) as [s1 o]; cbn in H1. specialize (IH s1 Hcs).
  destruct (thistory U fuel s1 (map TDo cs)) as [s2 os]. cbn in IH. destruct o; cbn; [by etrans..|done].
Qed.
End Tidy.
