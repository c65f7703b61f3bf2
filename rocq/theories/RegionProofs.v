(** * Programs that keep to their own Builders and header maps *)
From stdpp Require Import gmap.
From Coq Require Import ZifyBool.
From Verif Require Import BuilderSpec RespFacts HdrFacts.

Section Region.
Context {V : Type} (U : uenv V) (fuel : nat).
Context (bs ms az : nat -> Prop).
Implicit Types (s : state V).

Definition slice_in (v : slice_) : Prop := forall a, sl_arr v = Some a -> az a.
Definition map_in (x : gmap string slice_) : Prop := forall key v, x !! key = Some v -> slice_in v.
Definition bd_in (x : builder) : Prop := returns_only U ms (bd_gen x) /\ forall m, bd_hdrs x = Some m -> ms m.
Record inv s : Prop := {
  i_maps : forall (m : nat) x, ms m -> s_maps s !! m = Some x -> map_in x;
  i_bds : forall (b : nat) x, bs b -> s_bds s !! b = Some x -> bd_in x;
  i_newm : forall m, (length (s_maps s) <= m)%nat -> ms m;
  i_newa : forall a, (length (s_arrs s) <= a)%nat -> az a;
  i_newb : forall b, (length (s_bds s) <= b)%nat -> bs b }.
Record frame s s' : Prop := {
  f_maps : forall (m : nat), ~ ms m -> s_maps s' !! m = s_maps s !! m;
  f_arrs : forall a, ~ az a -> s_arrs s' !! a = s_arrs s !! a;
  f_bds : forall b, ~ bs b -> s_bds s' !! b = s_bds s !! b;
  f_rps : forall r x, s_rps s !! r = Some x -> s_rps s' !! r = Some x }.
Definition rR s s' : Prop := inv s -> inv s' /\ frame s s'.
Lemma frame_refl s : frame s s.
Proof. by constructor. Qed.
Global Instance rR_refl : Reflexive rR.
Proof. intros s H. split; [done|apply frame_refl]. Qed.
Global Instance rR_trans : Transitive rR.
Proof.
  intros s1 s2 s3 H1 H2 H. destruct (H1 H) as [I2 F12]. destruct (H2 I2) as [I3 F23]. split; [done|]. constructor.
  - intros m Hm. rewrite (f_maps _ _ F23), (f_maps _ _ F12); done.
  - intros m Hm. rewrite (f_arrs _ _ F23), (f_arrs _ _ F12); done.
  - intros m Hm. rewrite (f_bds _ _ F23), (f_bds _ _ F12); done.
  - intros r x Hr. apply (f_rps _ _ F23), (f_rps _ _ F12), Hr.
Qed.
Notation rok := (pres rR).

(** Calls with a property of the value they return. *)
Definition rret {A} (m : M A) (Q : A -> Prop) : Prop := forall s, inv s -> inv (m s).1 /\ frame s (m s).1 /\ forall a, (m s).2 = ORet a -> Q a.
Lemma rret_bind {A B} (m : M A) (k : A -> M B) Q Q' : rret m Q -> (forall a, Q a -> rret (k a) Q') -> rret (ybind m k) Q'.
Proof.
  intros Hm Hk s Hs. unfold ybind. destruct (Hm s Hs) as (H1 & H2 & H3). destruct (m s) as [s' [a|e|]]; cbn in *; [|done|done].
  destruct (Hk a (H3 a eq_refl) s' H1) as (K1 & K2 & K3). split; [done|]. split; [|done].
  apply (rR_trans s s' _ (fun _ => conj H1 H2) (fun _ => conj K1 K2) Hs).
Qed.
Lemma rret_any {A} (m : M A) : rok m -> rret m (fun _ => True).
Proof. intros H s Hs. destruct (H s Hs). done. Qed.
Lemma rok_of {A} (m : M A) Q : rret m Q -> rok m.
Proof. intros H s Hs. destruct (H s Hs) as (? & ? & _). done. Qed.
Lemma rret_ret {A} (a : A) (Q : A -> Prop) : Q a -> rret (yret a) Q.
Proof. intros HQ s Hs. split; [done|]. split; [apply frame_refl|]. by intros ? [= <-]. Qed.
Lemma rret_panic {A} e (Q : A -> Prop) : rret (mpanic e) Q.
Proof. intros s Hs. split; [done|]. split; [apply frame_refl|done]. Qed.
Lemma rret_weaken {A} (m : M A) (Q Q' : A -> Prop) : (forall a, Q a -> Q' a) -> rret m Q -> rret m Q'.
Proof. intros H Hm s Hs. destruct (Hm s Hs) as (? & ? & ?). split; [done|]. split; [done|]. auto. Qed.

(** Primitives *)
Lemma r_still {A} (m : M A) : (forall s, s_maps (m s).1 = s_maps s /\ s_arrs (m s).1 = s_arrs s /\ s_bds (m s).1 = s_bds s /\ s_rps (m s).1 = s_rps s) -> rok m.
Proof.
  intros H s [I1 I2 I3 I4 I5]. destruct (H s) as (H1 & H2 & H3 & H4). split; [split; rewrite ?H1, ?H2, ?H3; done|]. split; intros; by rewrite ?H1, ?H2, ?H3, ?H4.
Qed.
Lemma r_met x : rok (met x). Proof. by apply r_still. Qed.
Lemma r_on_heap {A} (m : prog A) : rok (on_heap U m).
Proof. apply r_still. intros s. unfold on_heap. by destruct (run _ _ _). Qed.
Lemma r_body c : rok (body_cmd U fuel c).
Proof. apply r_still. intros s. unfold body_cmd. by destruct (uexec _ _ _ _). Qed.
Lemma r_on_writer {A} (m : wm A) : rok (on_writer m).
Proof. apply r_still. intros s. unfold on_writer. by destruct (m _). Qed.
Lemma r_outside {A} (m : V -> V * (A + panic)) : rok (outside m).
Proof. apply r_still. intros s. unfold outside. by destruct (m _). Qed.
Lemma r_call b f : rok (body_call U fuel b f).
Proof. apply pres_bind; [apply _|by apply pres_of_opt; apply _|]. intros i. apply r_body. Qed.
Lemma r_NewWriter k b : rok (NewWriter U k b).
Proof. apply r_still. intros s. unfold NewWriter. destruct k as [k|]; [|done]. destruct (_ !! _) as [[]|]; done. Qed.
Lemma r_log_u e : rok (log_u e). Proof. by apply r_still. Qed.
Local Hint Resolve r_met r_on_heap r_body r_on_writer r_outside r_call r_NewWriter r_log_u : pres.

Lemma rret_the_map (m : mid) : ms m -> rret (the_map m) map_in.
Proof.
  intros Hm s Hs. unfold the_map. destruct (s_maps s !! m) as [x|] eqn:Hx; cbn; (split; [done|]); (split; [apply frame_refl|]); [|done].
  intros a [= <-]. by eapply (i_maps _ Hs).
Qed.
Lemma rret_put_map (m : mid) x : ms m -> map_in x -> rret (put_map m x) (fun _ => True).
Proof.
  intros Hm Hx s [I1 I2 I3 I4 I5]. split; [|split; [|done]].
  - split; cbn; try done.
    + intros m' x' Hm'. intros [(_ & <- & _)|[_ ?]]%list_lookup_insert_Some; [done|]. by eapply I1.
    + intros m' Hl. rewrite insert_length in Hl. auto.
  - split; cbn; try done. intros m' Hm'. rewrite list_lookup_insert_ne; [done|]. by intros ->.
Qed.
Lemma rret_make_map x : map_in x -> rret (make_map x) (fun m => ms m).
Proof.
  intros Hx s [I1 I2 I3 I4 I5]. split; [|split].
  - split; cbn; try done.
    + intros m' x' Hm' [H|[_ H]]%lookup_app_Some; [by eapply I1|]. apply list_lookup_singleton_Some in H as [_ <-]. done.
    + intros m' Hl. rewrite app_length in Hl. apply I3. lia.
  - split; cbn; try done. intros m' Hm'. rewrite lookup_app_l; [done|]. destruct (decide (m' < length (s_maps s))%nat); [done|]. destruct Hm'. apply I3. lia.
  - cbn. intros a [= <-]. by apply I3.
Qed.
Lemma rret_make_slice l n : rret (make_slice l n) slice_in.
Proof.
  intros s [I1 I2 I3 I4 I5]. split; [|split].
  - split; cbn; try done. intros m' Hl. rewrite app_length in Hl. apply I4. lia.
  - split; cbn; try done. intros m' Hm'. rewrite lookup_app_l; [done|]. destruct (decide (m' < length (s_arrs s))%nat); [done|]. destruct Hm'. apply I4. lia.
  - cbn. intros a [= <-] a0 [= <-]. by apply I4.
Qed.
Lemma rret_write_arr a i x : az a ->
  rret (fun s => (put_arrs s (<[a := <[i := x]> (default [] (s_arrs s !! a))]> (s_arrs s)), ORet tt)) (fun _ => True).
Proof.
  intros Ha s [I1 I2 I3 I4 I5]. split; [|split; [|done]].
  - split; cbn; try done. intros m' Hl. rewrite insert_length in Hl. auto.
  - split; cbn; try done. intros m' Hm'. rewrite list_lookup_insert_ne; [done|]. by intros ->.
Qed.
Lemma rret_append_to v x : slice_in v -> rret (append_to U v x) slice_in.
Proof.
  intros Hv. unfold append_to. destruct (sl_arr v) as [a|] eqn:Ha; [|intros s; apply rret_make_slice].
  intros s Hs. destruct (sl_len v <? sl_cap v)%nat; [|by apply rret_make_slice].
  destruct (rret_write_arr a (sl_off v + sl_len v)%nat x (Hv a Ha) s Hs) as (H1 & H2 & _). split; [exact H1|]. split; [exact H2|].
  cbn. intros w [= <-] a0 [= <-]. by apply Hv.
Qed.
Lemma rret_copyStrings v : rret (copyStrings v) slice_in.
Proof.
  intros s Hs. unfold copyStrings. destruct (_ =? _)%nat; [|by apply rret_make_slice]. split; [done|]. split; [apply frame_refl|]. by intros a [= <-].
Qed.
Lemma rret_the_bd (b : nat) : bs b -> rret (the_bd b) bd_in.
Proof.
  intros Hb s Hs. unfold the_bd. destruct (s_bds s !! b) as [x|] eqn:Hx; cbn; (split; [done|]); (split; [apply frame_refl|]); [|done].
  intros a [= <-]. by eapply (i_bds _ Hs).
Qed.
Lemma rret_set_bd b x : bs b -> bd_in x -> rret (set_bd b x) (fun _ => True).
Proof.
  intros Hb Hx s [I1 I2 I3 I4 I5]. split; [|split; [|done]].
  - split; cbn; try done.
    + intros b' x' Hb'. intros [(_ & <- & _)|[_ ?]]%list_lookup_insert_Some; [done|]. by eapply I2.
    + intros b' Hl. rewrite insert_length in Hl. auto.
  - split; cbn; try done. intros b' Hb'. rewrite list_lookup_insert_ne; [done|]. by intros ->.
Qed.
Lemma rret_make_bd x : bd_in x -> rret (make_bd x) (fun _ => True).
Proof.
  intros Hx s [I1 I2 I3 I4 I5]. split; [|split; [|done]].
  - split; cbn; try done.
    + intros m' x' Hm' [H|[_ H]]%lookup_app_Some; [by eapply I2|]. apply list_lookup_singleton_Some in H as [_ <-]. done.
    + intros m' Hl. rewrite app_length in Hl. apply I5. lia.
  - split; cbn; try done. intros m' Hm'. rewrite lookup_app_l; [done|]. destruct (decide (m' < length (s_bds s))%nat); [done|]. destruct Hm'. apply I5. lia.
Qed.
Lemma r_make_rp x : rok (make_rp x).
Proof. intros s [I1 I2 I3 I4 I5]. split; [by split|]. split; try done. cbn. intros r y Hr. by apply lookup_app_l_Some. Qed.
Local Hint Resolve r_make_rp : pres.

(** Header maps *)
Lemma map_in_insert x key v : map_in x -> slice_in v -> map_in (<[key := v]> x).
Proof. intros Hx Hv k v'. rewrite lookup_insert_Some. intros [[_ <-]|[_ ?]]; [done|]. by eapply Hx. Qed.
Lemma map_in_delete x key : map_in x -> map_in (delete key x).
Proof. intros Hx k v'. rewrite lookup_delete_Some. intros [_ ?]. by eapply Hx. Qed.
Lemma map_in_default x key : map_in x -> slice_in (default nil_slice (x !! key)).
Proof. intros H. destruct (x !! key) eqn:Hk; [by eapply H|]. by intros a. Qed.
Lemma map_in_empty : map_in ∅.
Proof. intros k v H. by rewrite lookup_empty in H. Qed.
Lemma rret_hdr_Set m key v : ms m -> rret (hdr_Set m key v) (fun _ => True).
Proof.
  intros Hm. unfold hdr_Set. eapply rret_bind; [by apply rret_the_map|]. intros x Hx. eapply rret_bind; [apply rret_make_slice|]. intros w Hw.
  apply rret_put_map; [done|]. by apply map_in_insert.
Qed.
Lemma rret_hdr_Add m key v : ms m -> rret (hdr_Add U m key v) (fun _ => True).
Proof.
  intros Hm. unfold hdr_Add. eapply rret_bind; [by apply rret_the_map|]. intros x Hx. eapply rret_bind; [apply rret_append_to; by apply map_in_default|]. intros w Hw.
  apply rret_put_map; [done|]. by apply map_in_insert.
Qed.
Lemma rret_hdr_Del m key : ms m -> rret (hdr_Del m key) (fun _ => True).
Proof. intros Hm. unfold hdr_Del. eapply rret_bind; [by apply rret_the_map|]. intros x Hx. apply rret_put_map; [done|]. by apply map_in_delete. Qed.
Lemma rret_fill_in m key v : ms m -> rret (fill_in m key v) (fun _ => True).
Proof.
  intros Hm. unfold fill_in. eapply rret_bind; [by apply rret_the_map|]. intros x Hx. destruct (x !! key); [by apply rret_ret|].
  eapply rret_bind; [apply rret_make_slice|]. intros w Hw. apply rret_put_map; [done|]. by apply map_in_insert.
Qed.
Lemma rret_copy_entries l dst : map_in dst -> rret (copy_entries l dst) map_in.
Proof.
  revert dst. induction l as [|[key v] l IH]; intros dst Hd; cbn [copy_entries]; [by apply rret_ret|].
  eapply rret_bind; [apply rret_copyStrings|]. intros w Hw. apply IH. by apply map_in_insert.
Qed.
Lemma rret_copyHeaders o : rret (copyHeaders o) (fun o' => forall m, o' = Some m -> ms m).
Proof.
  unfold copyHeaders. destruct o as [m|]; [|by apply rret_ret]. eapply rret_bind; [apply rret_any; by pres_go|]. intros x _.
  destruct (bool_decide _); [by apply rret_ret|]. eapply rret_bind; [apply rret_copy_entries, map_in_empty|]. intros d Hd.
  eapply rret_bind; [by apply rret_make_map|]. intros m' Hm'. apply rret_ret. by intros ? [= <-].
Qed.
Lemma r_copyBody o : rok (copyBody U fuel o).
Proof. unfold copyBody. pres_go. Qed.
Local Hint Resolve r_copyBody : pres.
Lemma rret_make_empty : rret (make_map (V:=V) ∅) (fun m => ms m).
Proof. apply rret_make_map, map_in_empty. Qed.
Ltac rgo1 :=
  match goal with
  | |- forall _, _ => intros ?
  | |- rret (yret _) _ => apply rret_ret
  | |- rret (mpanic _) _ => apply rret_panic
  | |- rret (ybind (make_map ∅) _) _ => eapply rret_bind; [apply rret_make_empty|]
  | |- rret (ybind (hdr_Set _ _ _) _) _ => eapply rret_bind; [by apply rret_hdr_Set|]
  | |- rret (hdr_Set _ _ _) _ => by apply rret_hdr_Set
  | |- rret (hdr_Add _ _ _ _) _ => by apply rret_hdr_Add
  | |- rret (hdr_Del _ _) _ => by apply rret_hdr_Del
  | |- rret (ybind (fill_in _ _ _) _) _ => eapply rret_bind; [by apply rret_fill_in|]
  | |- rret (fill_in _ _ _) _ => by apply rret_fill_in
  | |- rret (ybind (the_bd _) _) _ => eapply rret_bind; [by apply rret_the_bd|]
  | |- rret (ybind (set_bd _ _) _) _ => eapply rret_bind; [apply rret_set_bd; [done|]|]
  | |- rret (set_bd _ _) _ => apply rret_set_bd; [done|]
  | |- rret (ybind (make_bd _) _) _ => eapply rret_bind; [apply rret_make_bd|]
  | |- rret (ybind (copyHeaders _) _) _ => eapply rret_bind; [apply rret_copyHeaders|]
  | |- rret (match ?x with _ => _ end) _ => destruct x eqn:?
  | |- rret (ybind (match ?x with _ => _ end) _) _ => destruct x eqn:?
  | |- rret (ybind _ _) _ => eapply rret_bind; [apply rret_any; by pres_go|]
  | |- rret _ (fun _ => True) => apply rret_any; by pres_go
  end.
Ltac rgo := repeat rgo1.
Lemma rret_default_redirect c l : rret (default_redirect U c l) (fun p => forall m, p.1 = Some m -> ms m).
Proof. unfold default_redirect. cbv zeta. rgo. cbn in *; by simplify_eq. Qed.
Lemma rret_default_error c : rret (default_error U c) (fun p => forall m, p.1 = Some m -> ms m).
Proof. unfold default_error. cbv zeta. rgo. cbn in *; by simplify_eq. Qed.
Lemma rret_gen_redirect gen c l : returns_only U ms gen -> rret (gen_redirect U gen c l) (fun p => forall m, p.1 = Some m -> ms m).
Proof.
  intros H. destruct gen as [g|]; cbn [gen_redirect]; [|apply rret_default_redirect]. intros s Hs. destruct (r_outside (fun v => u_redirect U v g c l) s Hs) as [H1 H2].
  split; [done|]. split; [done|]. unfold outside in *. destruct (u_redirect U _ g c l) as [v [[h i]|e]] eqn:E; cbn; [|done]. intros a [= <-] m. cbn. intros ->.
  eapply (proj1 (H g _ _ m i eq_refl)). exact E.
Qed.
Lemma rret_gen_error gen c e : returns_only U ms gen -> rret (gen_error U gen c e) (fun p => forall m, p.1 = Some m -> ms m).
Proof.
  intros H. destruct gen as [g|]; cbn [gen_error]; [|apply rret_default_error]. intros s Hs. destruct (r_outside (fun v => u_error U v g c e) s Hs) as [H1 H2].
  split; [done|]. split; [done|]. unfold outside in *. destruct (u_error U _ g c e) as [v [[h i]|e']] eqn:E; cbn; [|done]. intros a [= <-] m. cbn. intros ->.
  eapply (proj2 (H g _ _ m i eq_refl)). exact E.
Qed.
Lemma rret_bd_Headers b : bs b -> rret (bd_Headers b) (fun m => ms m).
Proof.
  intros Hb. unfold bd_Headers. eapply rret_bind; [by apply rret_the_bd|]. intros x [Hg Hx]. destruct (bd_hdrs x) as [m|] eqn:Hh.
  - apply rret_ret. by apply Hx.
  - eapply rret_bind; [apply rret_make_empty|]. intros m Hm. eapply rret_bind; [apply rret_set_bd; [done|]|].
    + split; [done|]. cbn. by intros ? [= <-].
    + intros _ _. by apply rret_ret.
Qed.
Lemma r_bd_do b f : bs b -> match f with WithPageGenerator gen => returns_only U ms gen | _ => True end -> rok (bd_do U b f).
Proof.
  intros Hb Hf. eapply (rok_of _ (fun _ => True)).
  destruct f; cbn [bd_do];
    unfold bd_WithPageGenerator, bd_WithStatus, bd_WithHeaders, bd_WithHeader, bd_WithoutHeader, bd_WithContentType, bd_WithContentLanguage,
      bd_WithContentEncoding, bd_WithETag, bd_WithDigest, bd_WithBody, bd_WithJSON, bd_WithPrettyJSON, bd_WithProto, bd_WithProtoText,
      bd_encoded, bd_WithError, bd_RedirectPage, bd_ErrorPage; cbv zeta;
    repeat first [ progress (repeat match goal with |- rret (ybind (bd_Headers _) _) _ => eapply rret_bind; [by apply rret_bd_Headers|] end)
                 | rgo1
                 | match goal with H : bd_in ?x |- rret (ybind (gen_redirect _ (bd_gen ?x) _ _) _) _ => eapply rret_bind; [by apply rret_gen_redirect, H|] end
                 | match goal with H : bd_in ?x |- rret (ybind (gen_error _ (bd_gen ?x) _ _) _) _ => eapply rret_bind; [by apply rret_gen_error, H|] end ].
  all: unfold bd_in in *; cbn in *; naive_solver.
Qed.
Lemma r_bd_Copy b : bs b -> rok (bd_Copy U fuel b).
Proof.
  intros Hb. eapply (rok_of _ (fun _ => True)). unfold bd_Copy. rgo; try done. unfold bd_in in *. cbn. naive_solver.
Qed.
Lemma r_bd_Build b : bs b -> rok (bd_Build U fuel b).
Proof.
  intros Hb. eapply (rok_of _ (fun _ => True)). unfold bd_Build. cbv zeta.
  eapply rret_bind; [by apply rret_the_bd|]. intros x [Hg Hx]. eapply rret_bind; [apply rret_any; by pres_go|]. intros _ _.
  eapply rret_bind; [apply rret_set_bd; [done|done]|]. intros _ _.
  eapply (rret_bind _ _ (fun m => ms m)).
  { destruct (bd_hdrs x) as [m|] eqn:Hh; [apply rret_ret; by apply Hx|apply rret_make_empty]. }
  intros m Hm. rgo. 
Qed.
Lemma r_h_do f : match f with HSet m _ _ _ | HElem m _ _ _ | HAppend m _ _ | HCut m _ _ _ | HDelete m _ => ms m | HShare m _ m' _ => ms m /\ ms m' end ->
  rok (h_do U f).
Proof.
  intros Hf. eapply (rok_of _ (fun _ => True)). destruct f; cbn [h_do].
  - eapply rret_bind; [by apply rret_the_map|]. intros x Hx. eapply rret_bind; [apply rret_make_slice|]. intros w Hw. apply rret_put_map; [done|]. by apply map_in_insert.
  - destruct Hf as [Hm Hm']. eapply rret_bind; [by apply rret_the_map|]. intros x Hx. eapply rret_bind; [by apply rret_the_map|]. intros y Hy.
    apply rret_put_map; [done|]. apply map_in_insert; [done|]. by apply map_in_default.
  - eapply rret_bind; [by apply rret_the_map|]. intros x Hx. cbv zeta. destruct (sl_arr _) as [a|] eqn:Ha; [|apply rret_panic].
    destruct (_ <? _)%nat; [|apply rret_panic]. apply rret_write_arr. by eapply (map_in_default x key).
  - eapply rret_bind; [by apply rret_the_map|]. intros x Hx. eapply rret_bind; [apply rret_append_to; by apply map_in_default|]. intros w Hw.
    apply rret_put_map; [done|]. by apply map_in_insert.
  - eapply rret_bind; [by apply rret_the_map|]. intros x Hx. cbv zeta. destruct (_ && _); [|apply rret_panic]. apply rret_put_map; [done|].
    apply map_in_insert; [done|]. intros a Ha. cbn in Ha. by eapply (map_in_default x key).
  - eapply rret_bind; [by apply rret_the_map|]. intros x Hx. apply rret_put_map; [done|]. by apply map_in_delete.
Qed.

(** Calls that touch neither Builders nor header maps *)
Lemma r_readfrom_loop n u b last : rok (readfrom_loop U fuel n u b last).
Proof.
  revert last. induction n as [|n IH]; intros last; cbn [readfrom_loop]; [pres_go|]. intros s. cbv zeta. destruct (u_readfrom _ _ _ _) as [v [f|ans]]; cbn.
  - set (s1 := put_h s _). assert (Hs1 : rR s s1) by (intros [? ? ? ? ?]; by split). etrans; [exact Hs1|]. pose proof (r_call b f s1) as H.
    destruct (body_call U fuel b f s1) as [s2 [r|e|]]; cbn in H; [etrans; [exact H|apply IH]..|exact H].
  - intros [? ? ? ? ?]. by split.
Qed.
Lemma r_lookup_wrap k : rok (lookup_wrap k).
Proof. unfold lookup_wrap. pres_go. Qed.
Local Hint Resolve r_readfrom_loop r_lookup_wrap : pres.
Lemma r_raw_ReadFrom by_ u b : rok (raw_ReadFrom U fuel by_ u b).
Proof. unfold raw_ReadFrom. pres_go. Qed.
Lemma r_discard_loop n b buf t : rok (discard_loop U fuel n b buf t).
Proof. revert buf t. induction n as [|n IH]; intros; cbn [discard_loop]; cbv zeta; pres_go. Qed.
Lemma r_write_to k b : rok (write_to U fuel k b).
Proof. unfold write_to. pres_go. Qed.
Local Hint Resolve r_raw_ReadFrom r_discard_loop r_write_to : pres.
Lemma r_copy_discard b : rok (copy_discard U fuel b).
Proof. unfold copy_discard. pres_go. Qed.
Local Hint Resolve r_copy_discard : pres.
Lemma r_wrap_ReadFrom k b : rok (wrap_ReadFrom U fuel k b).
Proof. unfold wrap_ReadFrom. pres_go. Qed.
Lemma r_any_WriteHeader k st : rok (any_WriteHeader U k st).
Proof. unfold any_WriteHeader. pres_go. Qed.
Lemma r_any_Push k url : rok (any_Push U k url).
Proof. unfold any_Push. pres_go. Qed.
Local Hint Resolve r_wrap_ReadFrom r_any_WriteHeader r_any_Push : pres.
Lemma r_any_ReadFrom k b : rok (any_ReadFrom U fuel k b).
Proof. unfold any_ReadFrom. pres_go. Qed.
Lemma r_rp_Copy x : rok (rp_Copy U fuel x).
Proof. unfold rp_Copy. pres_go. Qed.
Local Hint Resolve r_any_ReadFrom r_rp_Copy : pres.
Lemma r_w_do k f : rok (w_do U fuel k f).
Proof. unfold w_do. pres_go. Qed.
Local Hint Resolve r_w_do : pres.
Lemma r_new : rok (NewBuilder (V:=V)).
Proof. eapply rok_of, rret_make_bd. split; [by intros ?|done]. Qed.
Lemma r_new_map : rok (make_map (V:=V) ∅).
Proof. eapply rok_of, rret_make_empty. Qed.
Lemma r_rdo c : keeps_to U bs ms c -> rok (rdo U fuel c).
Proof.
  intros Hc. destruct c; cbn [rdo keeps_to] in *; try done; try by pres_go.
  - apply pres_bind; [apply _|apply r_new_map|]. pres_go.
  - apply pres_bind; [apply _|apply r_h_do; by destruct f|]. pres_go.
  - apply pres_bind; [apply _|apply r_new|]. pres_go.
  - apply pres_bind; [apply _|by apply r_bd_do; destruct f; try tauto; apply Hc|]. pres_go.
  - apply pres_bind; [apply _|by eapply rok_of, rret_bd_Headers|]. pres_go.
  - apply pres_bind; [apply _|by apply r_bd_Copy|]. pres_go.
  - apply pres_bind; [apply _|by apply r_bd_Build|]. pres_go.
Qed.
Lemma r_history s cs : Forall (keeps_to U bs ms) cs -> rR s (thistory U fuel s (map TDo cs)).1.
Proof.
  revert s. induction cs as [|c cs IH]; intros s Hcs; cbn [map thistory]; [reflexivity|]. apply Forall_cons in Hcs as [Hc Hcs].
  pose proof (r_rdo c Hc s) as H1. cbn [texec]. destruct (rdo U fuel c s) as [s1 o]; cbn in H1. specialize (IH s1 Hcs).
  destruct (thistory U fuel s1 (map TDo cs)) as [s2 os]. cbn in IH. destruct o; cbn; [by etrans..|done].
Qed.
(** Header maps outside, whose arrays are outside as well, look the same. *)
Lemma frame_view s s' (m : mid) : frame s s' -> ~ ms m -> (forall key a, array_of s m key = Some a -> ~ az a) -> view s' m = view s m.
Proof.
  intros [F1 F2 _ _] Hm Ha. unfold view. rewrite (F1 m Hm : s_maps s' !! (m : mid) = s_maps s !! (m : mid)).
  unfold array_of in Ha. destruct (s_maps s !! m) as [x|]; [|done]. f_equal. apply map_fmap_ext. intros key v Hv. unfold contents_of.
  destruct (sl_arr v) as [a|] eqn:Hav; [|done]. rewrite F2; [done|]. apply (Ha key). by rewrite Hv.
Qed.
End Region.
