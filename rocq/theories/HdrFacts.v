(** * Header maps, slices and arrays *)
From stdpp Require Import gmap.
From Coq Require Import ZifyBool.
From Verif Require Import BuilderSpec RespFacts.

Section Hdr.
Context {V : Type} (U : uenv V) (fuel : nat).
Implicit Types (s : state V) (arrs : list (list string)).

(** ** Soundness *)
Definition swf s : Prop := sound_maps (s_arrs s) (s_maps s).
(** Arrays keep their lengths. *)
Definition agrow arrs arrs' : Prop := forall a l, arrs !! a = Some l -> exists l', arrs' !! a = Some l' /\ length l' = length l.
Lemma agrow_refl arrs : agrow arrs arrs.
Proof. intros a l H. eauto. Qed.
Lemma agrow_app arrs l : agrow arrs (arrs ++ l).
Proof. intros a x H. exists x. split; [by apply lookup_app_l_Some|done]. Qed.
Lemma agrow_insert arrs a i x : agrow arrs (<[a := <[i := x]> (default [] (arrs !! a))]> arrs).
Proof.
  intros a' l H. destruct (decide (a' = a)) as [->|Hne].
  - rewrite list_lookup_insert by (by eapply lookup_lt_Some). rewrite H. cbn. eexists. split; [done|]. by rewrite insert_length.
  - rewrite list_lookup_insert_ne by done. eauto.
Qed.
Lemma sound_grow arrs arrs' v : agrow arrs arrs' -> sound_slice arrs v -> sound_slice arrs' v.
Proof. unfold sound_slice. intros H. destruct (sl_arr v) as [a|]; [|done]. intros (l & Hl & ? & ?). destruct (H a l Hl) as (l' & Hl' & ?). exists l'. rewrite Hl'. split; [done|lia]. Qed.
Lemma sound_map_grow arrs arrs' x : agrow arrs arrs' -> sound_map arrs x -> sound_map arrs' x.
Proof. intros H Hx key v Hv. eapply sound_grow; [done|]. by eapply Hx. Qed.
Lemma sound_maps_grow arrs arrs' ms : agrow arrs arrs' -> sound_maps arrs ms -> sound_maps arrs' ms.
Proof. intros H Hx m x Hm. eapply sound_map_grow; [done|]. by eapply Hx. Qed.
Lemma sound_insert arrs x key v : sound_map arrs x -> sound_slice arrs v -> sound_map arrs (<[key := v]> x).
Proof. intros Hx Hv k v'. rewrite lookup_insert_Some. intros [[_ <-]|[_ ?]]; [done|]. by eapply Hx. Qed.
Lemma sound_delete arrs x key : sound_map arrs x -> sound_map arrs (delete key x).
Proof. intros Hx k v'. rewrite lookup_delete_Some. intros [_ ?]. by eapply Hx. Qed.
Lemma sound_maps_insert arrs ms m x : sound_maps arrs ms -> sound_map arrs x -> sound_maps arrs (<[m := x]> ms).
Proof. intros Hx Hv m' x'. intros [(_ & <- & _)|[_ ?]]%list_lookup_insert_Some; [done|]. by eapply Hx. Qed.
Lemma sound_maps_app arrs ms x : sound_maps arrs ms -> sound_map arrs x -> sound_maps arrs (ms ++ [x]).
Proof. intros Hx Hv m' x'. intros [H|[_ H]]%lookup_app_Some; [by eapply Hx|]. apply list_lookup_singleton_Some in H as [_ <-]. done. Qed.
Lemma sound_empty arrs : sound_map arrs ∅.
Proof. intros k v H. by rewrite lookup_empty in H. Qed.
Lemma sound_nil arrs : sound_slice arrs nil_slice.
Proof. done. Qed.
Lemma sound_default arrs x key : sound_map arrs x -> sound_slice arrs (default nil_slice (x !! key)).
Proof. intros H. destruct (x !! key) eqn:Hk; [by eapply H|apply sound_nil]. Qed.

(** What allocating functions do. *)
Lemma make_slice_run l extra s :
  make_slice l extra s = (put_arrs s (s_arrs s ++ [l ++ replicate extra EmptyString]),
    ORet {| sl_arr := Some (length (s_arrs s)); sl_off := 0; sl_len := length l; sl_cap := length l + extra |}).
Proof. done. Qed.
Lemma make_slice_sound l extra arrs :
  sound_slice (arrs ++ [l ++ replicate extra EmptyString])
    {| sl_arr := Some (length arrs); sl_off := 0; sl_len := length l; sl_cap := length l + extra |}.
Proof.
  exists (l ++ replicate extra EmptyString). cbn. split; [by rewrite lookup_app_r, Nat.sub_diag by lia|]. rewrite app_length, replicate_length. lia.
Qed.
Lemma append_to_sound v x s : sound_slice (s_arrs s) v ->
  exists s' v', append_to U v x s = (s', ORet v') /\ (exists arrs', s' = put_arrs s arrs' /\ agrow (s_arrs s) arrs' /\ sound_slice arrs' v').
Proof.
  intros Hv. unfold append_to. destruct (sl_arr v) as [a|] eqn:Ha.
  - destruct (sl_len v <? sl_cap v)%nat eqn:Hl.
    + eexists _, _. split; [reflexivity|]. eexists. split; [reflexivity|]. split; [apply agrow_insert|].
      unfold sound_slice in Hv. rewrite Ha in Hv. destruct Hv as (l & Hal & ? & ?). unfold sound_slice. cbn.
      rewrite list_lookup_insert by (by eapply lookup_lt_Some). eexists. split; [done|]. rewrite insert_length, Hal. cbn. lia.
    + eexists _, _. split; [reflexivity|]. eexists. split; [reflexivity|]. split; [apply agrow_app|apply make_slice_sound].
  - eexists _, _. split; [reflexivity|]. eexists. split; [reflexivity|]. split; [apply agrow_app|apply (make_slice_sound [x])].
Qed.

(** ** Every reachable state is sound *)
Definition sR s s' : Prop := swf s -> swf s'.
Global Instance sR_refl : Reflexive sR.
Proof. intros s H. exact H. Qed.
Global Instance sR_trans : Transitive sR.
Proof. intros s1 s2 s3 H1 H2 H. exact (H2 (H1 H)). Qed.
Notation sok := (pres sR).
Lemma s_still {A} (m : M A) : (forall s, s_maps (m s).1 = s_maps s /\ s_arrs (m s).1 = s_arrs s) -> sok m.
Proof. intros H s. unfold sR, swf. destruct (H s) as [-> ->]. done. Qed.
Lemma s_make_empty : sok (make_map ∅).
Proof. intros s H. apply sound_maps_app; [done|apply sound_empty]. Qed.
Lemma s_make_slice l n : sok (make_slice l n).
Proof. intros s H. eapply sound_maps_grow; [apply agrow_app|done]. Qed.
Lemma s_set_bd m x : sok (set_bd m x). Proof. by apply s_still. Qed.
Lemma s_make_bd x : sok (make_bd x). Proof. by apply s_still. Qed.
Lemma s_make_rp x : sok (make_rp x). Proof. by apply s_still. Qed.
Lemma s_metric x : sok (met x). Proof. by apply s_still. Qed.
Lemma s_on_heap {A} (m : prog A) : sok (on_heap U m).
Proof. apply s_still. intros s. unfold on_heap. by destruct (run _ _ _). Qed.
Lemma s_body c : sok (body_cmd U fuel c).
Proof. apply s_still. intros s. unfold body_cmd. by destruct (uexec _ _ _ _). Qed.
Lemma s_on_writer {A} (m : wm A) : sok (on_writer m).
Proof. apply s_still. intros s. unfold on_writer. by destruct (m _). Qed.
Lemma s_outside {A} (m : V -> V * (A + panic)) : sok (outside m).
Proof. apply s_still. intros s. unfold outside. by destruct (m _). Qed.
Lemma s_call b f : sok (body_call U fuel b f).
Proof. apply pres_bind; [apply _|by apply pres_of_opt; apply _|]. intros i. apply s_body. Qed.
Lemma s_NewWriter k b : sok (NewWriter U k b).
Proof. apply s_still. intros s. unfold NewWriter. destruct k as [k|]; [|done]. destruct (_ !! _) as [[]|]; done. Qed.
Lemma s_log_u e : sok (log_u e). Proof. by apply s_still. Qed.
Lemma s_hdr_Set m key v : sok (hdr_Set m key v).
Proof.
  intros s H. unfold hdr_Set, ybind, the_map. destruct (s_maps s !! m) as [x|] eqn:Hm; [|done]. cbn.
  apply sound_maps_insert; [eapply sound_maps_grow; [apply agrow_app|done]|]. apply sound_insert; [|apply (make_slice_sound [v] 0)].
  eapply sound_map_grow; [apply agrow_app|]. by eapply H.
Qed.
Lemma s_add m (key value : string) : sok (ybind (the_map m) (fun x => ybind (append_to U (default nil_slice (x !! key)) value) (fun v => put_map m (<[key := v]> x)))).
Proof.
  intros s H. unfold ybind, the_map. destruct (s_maps s !! m) as [x|] eqn:Hm; [|done].
  destruct (append_to_sound (default nil_slice (x !! key)) value s) as (s' & v' & -> & arrs' & -> & Hg & Hv).
  { apply sound_default. by eapply H. }
  cbn. apply sound_maps_insert; [by eapply sound_maps_grow|]. apply sound_insert; [|done]. eapply sound_map_grow; [done|]. by eapply H.
Qed.
Lemma s_hdr_Del m key : sok (hdr_Del m key).
Proof.
  intros s H. unfold hdr_Del, ybind, the_map. destruct (s_maps s !! m) as [x|] eqn:Hm; [|done]. cbn.
  apply sound_maps_insert; [done|]. apply sound_delete. by eapply H.
Qed.
Lemma s_fill_in m key v : sok (fill_in m key v).
Proof.
  intros s H. unfold fill_in, ybind, the_map. destruct (s_maps s !! m) as [x|] eqn:Hm; [|done]. destruct (x !! key); [done|]. cbn.
  apply sound_maps_insert; [eapply sound_maps_grow; [apply agrow_app|done]|]. apply sound_insert; [|apply (make_slice_sound [v] 0)].
  eapply sound_map_grow; [apply agrow_app|]. by eapply H.
Qed.
Lemma s_copy_to m x : forall s, swf s -> sound_map (s_arrs s) x -> swf (copy_to m x s).1.
Proof.
  intros s H Hx. unfold copy_to. destruct (bool_decide _); [done|]. unfold ybind, the_map. destruct (s_maps s !! m) as [y|] eqn:Hm; [|done]. cbn.
  apply sound_maps_insert; [done|]. intros key v [Hv|[_ Hv]]%lookup_union_Some_raw; [|by eapply H]. apply lookup_delete_Some in Hv as [_ Hv]. by eapply Hx.
Qed.
(** Copying. *)
Lemma copy_entries_run l dst s :
  exists arrs' dst', copy_entries l dst s = (put_arrs s (s_arrs s ++ arrs'), ORet dst') /\
    (sound_map (s_arrs s) dst -> sound_map (s_arrs s ++ arrs') dst').
Proof.
  revert dst s. induction l as [|[key v] l IH]; intros dst s; cbn [copy_entries].
  - exists [], dst. rewrite app_nil_r. split; [destruct s; done|done].
  - unfold ybind. unfold copyStrings. destruct (sl_len v =? 0)%nat eqn:Hl.
    + destruct (IH (<[key := nil_slice]> dst) s) as (arrs' & dst' & -> & H). exists arrs', dst'. split; [done|]. intros Hd. apply H. by apply sound_insert.
    + rewrite make_slice_run. set (w := {| sl_arr := _ |}). set (s1 := put_arrs s _).
      destruct (IH (<[key := w]> dst) s1) as (arrs' & dst' & -> & H).
      exists ([contents_of (s_arrs s) v ++ replicate 0 EmptyString] ++ arrs'), dst'. split; [unfold s1, put_arrs; cbn; by rewrite <- app_assoc|].
      intros Hd. rewrite app_assoc. apply H. cbn. apply sound_insert; [eapply sound_map_grow; [apply agrow_app|done]|apply make_slice_sound].
Qed.
Lemma s_copyHeaders o : sok (copyHeaders o).
Proof.
  intros s H. unfold copyHeaders. destruct o as [m|]; [|done]. unfold ybind at 1. unfold the_map. destruct (s_maps s !! m) as [x|] eqn:Hm; [|done].
  destruct (bool_decide _); [done|]. unfold ybind. destruct (copy_entries_run (map_to_list x) ∅ s) as (arrs' & dst' & -> & Hd). cbn.
  apply sound_maps_app; [eapply sound_maps_grow; [apply agrow_app|done]|]. apply Hd, sound_empty.
Qed.
Local Hint Resolve s_make_empty s_make_slice s_set_bd s_make_bd s_make_rp s_metric s_on_heap s_body s_on_writer s_outside s_call s_NewWriter
  s_log_u s_hdr_Set s_add s_hdr_Del s_fill_in s_copyHeaders : pres.
Lemma s_hdr_Add m key v : sok (hdr_Add U m key v).
Proof. apply s_add. Qed.
Lemma s_copyBody o : sok (copyBody U fuel o).
Proof. unfold copyBody. pres_go. Qed.
Local Hint Resolve s_hdr_Add s_copyBody : pres.
Lemma s_gen_redirect g c l : sok (gen_redirect U g c l).
Proof. unfold gen_redirect, default_redirect. pres_go. Qed.
Lemma s_gen_error g c l : sok (gen_error U g c l).
Proof. unfold gen_error, default_error. pres_go. Qed.
Lemma s_bd_Headers b : sok (bd_Headers b).
Proof. unfold bd_Headers. pres_go. Qed.
Local Hint Resolve s_gen_redirect s_gen_error s_bd_Headers : pres.
Lemma s_bd_do b f : sok (bd_do U b f).
Proof.
  destruct f; cbn [bd_do];
    unfold bd_WithPageGenerator, bd_WithStatus, bd_WithHeaders, bd_WithHeader, bd_WithoutHeader, bd_WithContentType, bd_WithContentLanguage,
      bd_WithContentEncoding, bd_WithETag, bd_WithDigest, bd_WithBody, bd_WithJSON, bd_WithPrettyJSON, bd_WithProto, bd_WithProtoText,
      bd_encoded, bd_WithError, bd_RedirectPage, bd_ErrorPage; cbv zeta; pres_go.
Qed.
Lemma s_bd_Copy b : sok (bd_Copy U fuel b).
Proof. unfold bd_Copy. pres_go. Qed.
Lemma s_bd_Build b : sok (bd_Build U fuel b).
Proof. unfold bd_Build. cbv zeta. pres_go. Qed.
Lemma s_h_do f : sok (h_do U f).
Proof.
  destruct f; cbn [h_do]; intros s H.
  - unfold ybind, the_map. destruct (s_maps s !! m) as [x|] eqn:Hm; [|done]. cbn.
    apply sound_maps_insert; [eapply sound_maps_grow; [apply agrow_app|done]|]. apply sound_insert; [|apply make_slice_sound].
    eapply sound_map_grow; [apply agrow_app|]. by eapply H.
  - unfold ybind, the_map. destruct (s_maps s !! m) as [x|] eqn:Hm; [|done]. destruct (s_maps s !! m') as [y|] eqn:Hm'; [|done]. cbn.
    apply sound_maps_insert; [done|]. apply sound_insert; [by eapply H|]. apply sound_default. by eapply H.
  - unfold ybind, the_map. destruct (s_maps s !! m) as [x|] eqn:Hm; [|done]. cbv zeta. destruct (sl_arr _); [|done]. destruct (_ <? _)%nat; [|done]. cbn.
    eapply sound_maps_grow; [apply agrow_insert|done].
  - by apply s_add.
  - unfold ybind, the_map. destruct (s_maps s !! m) as [x|] eqn:Hm; [|done]. cbv zeta. destruct (_ && _) eqn:Hij; [|done]. cbn.
    apply sound_maps_insert; [done|]. apply sound_insert; [by eapply H|].
    assert (Hd : sound_slice (s_arrs s) (default nil_slice (x !! key))) by (apply sound_default; by eapply H).
    unfold sound_slice in *. cbn. destruct (sl_arr _) as [a|]; [|lia]. destruct Hd as (l & Hl & ? & ?). exists l. split; [done|]. lia.
  - unfold ybind, the_map. destruct (s_maps s !! m) as [x|] eqn:Hm; [|done]. cbn.
    apply sound_maps_insert; [done|]. apply sound_delete. by eapply H.
Qed.
Local Hint Resolve s_bd_do s_bd_Copy s_bd_Build s_h_do : pres.
Lemma s_readfrom_loop n u b last : sok (readfrom_loop U fuel n u b last).
Proof.
  revert last. induction n as [|n IH]; intros last; cbn [readfrom_loop]; [pres_go|]. intros s. cbv zeta. destruct (u_readfrom _ _ _ _) as [v [f|ans]]; cbn.
  - set (s1 := put_h s _). assert (Hs1 : sR s s1) by (intros H; exact H). etrans; [exact Hs1|]. pose proof (s_call b f s1) as H.
    destruct (body_call U fuel b f s1) as [s2 [r|e|]]; cbn in H; [etrans; [exact H|apply IH]..|exact H].
  - intros H. exact H.
Qed.
Lemma s_lookup_wrap k : sok (lookup_wrap k).
Proof. unfold lookup_wrap. pres_go. Qed.
Local Hint Resolve s_readfrom_loop s_lookup_wrap : pres.
Lemma s_raw_ReadFrom by_ u b : sok (raw_ReadFrom U fuel by_ u b).
Proof. unfold raw_ReadFrom. pres_go. Qed.
Lemma s_discard_loop n b buf t : sok (discard_loop U fuel n b buf t).
Proof. revert buf t. induction n as [|n IH]; intros; cbn [discard_loop]; cbv zeta; pres_go. Qed.
Lemma s_copy_loop n k b buf t : sok (copy_loop U fuel n k b buf t).
Proof.
  revert buf t. induction n as [|n IH]; intros; cbn [copy_loop]; cbv zeta; pres_go. intros s. destruct (slice _ _ _); reflexivity.
Qed.
Lemma s_write_to k b : sok (write_to U fuel k b).
Proof. unfold write_to. pres_go. Qed.
Local Hint Resolve s_raw_ReadFrom s_discard_loop s_copy_loop s_write_to : pres.
Lemma s_copy_discard b : sok (copy_discard U fuel b).
Proof. unfold copy_discard. pres_go. Qed.
Local Hint Resolve s_copy_discard : pres.
Lemma s_wrap_ReadFrom k b : sok (wrap_ReadFrom U fuel k b).
Proof. unfold wrap_ReadFrom. pres_go. Qed.
Lemma s_any_WriteHeader k st : sok (any_WriteHeader U k st).
Proof. unfold any_WriteHeader. pres_go. Qed.
Lemma s_any_Push k url : sok (any_Push U k url).
Proof. unfold any_Push. pres_go. Qed.
Local Hint Resolve s_wrap_ReadFrom s_any_WriteHeader s_any_Push : pres.
Lemma s_any_ReadFrom k b : sok (any_ReadFrom U fuel k b).
Proof. unfold any_ReadFrom. pres_go. Qed.
Local Hint Resolve s_any_ReadFrom : pres.
Lemma s_io_Copy k b : sok (io_Copy U fuel k b).
Proof. unfold io_Copy. pres_go. Qed.
Lemma s_push_all k l : sok (push_all U k l).
Proof. induction l; cbn [push_all]; pres_go. Qed.
Lemma s_rp_Copy x : sok (rp_Copy U fuel x).
Proof. unfold rp_Copy. pres_go. Qed.
Local Hint Resolve s_io_Copy s_push_all s_rp_Copy : pres.
Lemma s_transfer k x : sok (ybind (map_or_nil x) (fun hdrs => copy_to k hdrs)).
Proof.
  intros s H. unfold ybind, map_or_nil. destruct x as [m|]; cbn.
  - unfold the_map. destruct (s_maps s !! m) as [y|] eqn:Hm; [|done]. apply s_copy_to; [done|]. by eapply H.
  - apply s_copy_to; [done|apply sound_empty].
Qed.
Lemma ybind_assoc {A B C} (m : M (V:=V) A) (f : A -> M B) (g : B -> M C) s : ybind (ybind m f) g s = ybind m (fun a => ybind (f a) g) s.
Proof. unfold ybind. destruct (m s) as [s' [a|e|]]; done. Qed.
Lemma pres_assoc R {A B C} (m : M (V:=V) A) (f : A -> M B) (g : B -> M C) : pres R (ybind (ybind m f) g) -> pres R (ybind m (fun a => ybind (f a) g)).
Proof. intros H s. rewrite <- ybind_assoc. apply H. Qed.
Lemma s_rp_Serve x k : sok (rp_Serve U fuel x k).
Proof.
  unfold rp_Serve. apply pres_bind; [apply _|pres_go|]. intros o. apply pres_bind; [apply _|pres_go|]. intros [e|]; [pres_go|].
  apply pres_bind; [apply _|pres_go|]. intros h. apply (pres_assoc _ _ (fun hdrs => copy_to h hdrs)). apply pres_bind; [apply _|apply s_transfer|]. intros _. pres_go.
Qed.
Lemma s_w_do k f : sok (w_do U fuel k f).
Proof. unfold w_do. pres_go. Qed.
Local Hint Resolve s_rp_Serve s_w_do : pres.
Lemma s_rdo c : sok (rdo U fuel c).
Proof. destruct c; cbn [rdo]; unfold NewBuilder; pres_go. Qed.
Lemma s_mets l : sok (mets l).
Proof. induction l; cbn [mets]; pres_go. Qed.
Local Hint Resolve s_rdo s_mets : pres.
Lemma s_run_handler f s : sR s (run_handler U fuel f s).1.
Proof.
  revert s. induction f as [[r|]|[e|]|c k IH]; intros s; cbn [run_handler]; try reflexivity.
  - destruct (s_rps s !! r); reflexivity.
  - pose proof (s_rdo c s) as H. destruct (rdo U fuel c s) as [s1 [r|e|]]; cbn in H; [etrans; [exact H|apply IH]..|done].
Qed.
Lemma s_defer ww pv : sok (adaptor_defer U ww pv).
Proof. unfold adaptor_defer. cbv zeta. pres_go. Qed.
Lemma s_ServeHTTP f k b : sok (ServeHTTP U fuel f k b).
Proof.
  intros s. unfold ServeHTTP. pose proof (s_NewWriter k b s) as H1. destruct (NewWriter U k b s) as [s1 [ww|e|]]; cbn in H1; [|done|done].
  etrans; [exact H1|]. pose proof (s_run_handler f s1) as H2. destruct (run_handler U fuel f s1) as [s2 [[x|e|]|[]]]; cbn in H2.
  - etrans; [exact H2|]. pose proof (s_rp_Serve x ww s2) as H3. destruct (rp_Serve U fuel x ww s2) as [s3 [[e|]|e|]]; cbn in H3; try done; (etrans; [exact H3|apply s_defer]).
  - etrans; [exact H2|apply s_defer].
  - done.
  - etrans; [exact H2|apply s_defer].
Qed.
Lemma s_texec c : sok (texec U fuel c).
Proof. destruct c; cbn [texec]; [apply s_rdo|]. apply pres_bind; [apply _|apply s_ServeHTTP|]. intros. pres_go. Qed.
Lemma s_history s cs : sR s (thistory U fuel s cs).1.
Proof.
  revert s. induction cs as [|c cs IH]; intros s; cbn [thistory]; [reflexivity|]. pose proof (s_texec c s) as H1.
  destruct (texec U fuel c s) as [s1 o]; cbn in H1. specialize (IH s1). destruct (thistory U fuel s1 cs) as [s2 os]. cbn in IH.
  destruct o; cbn; [by etrans..|done].
Qed.
Theorem treaches_swf s : treaches U fuel s -> swf s.
Proof. intros (v & n & maps & arrs & cs & os & Hs & H). pose proof (s_history (tinitial v n maps arrs) cs) as Hw. rewrite H in Hw. by apply Hw. Qed.
End Hdr.
