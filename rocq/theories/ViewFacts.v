(** * What header operations do to the contents of header maps *)
From stdpp Require Import gmap.
From Coq Require Import ZifyBool.
From Verif Require Import BuilderSpec RespFacts HdrFacts.

Section View.
Context {V : Type} (U : uenv V) (fuel : nat).
Implicit Types (s : state V) (arrs : list (list string)).

Lemma contents_app arrs l v : sound_slice arrs v -> contents_of (arrs ++ l) v = contents_of arrs v.
Proof.
  unfold sound_slice, contents_of. destruct (sl_arr v) as [a|]; [|done]. intros (x & Hx & _). by rewrite (lookup_app_l_Some _ _ _ _ Hx), Hx.
Qed.
Lemma contents_new arrs l n c :
  contents_of (arrs ++ [l ++ replicate n EmptyString]) {| sl_arr := Some (length arrs); sl_off := 0; sl_len := length l; sl_cap := c |} = l.
Proof. unfold contents_of. cbn. rewrite lookup_app_r, Nat.sub_diag by done. cbn. rewrite drop_0. apply take_app. Qed.
Lemma fmap_app arrs l x : sound_map arrs x -> contents_of (arrs ++ l) <$> x = contents_of arrs <$> x.
Proof. intros H. apply map_fmap_ext. intros k v Hv. apply contents_app. by eapply H. Qed.
Lemma view_app s l m : swf s -> view (put_arrs s (s_arrs s ++ l)) m = view s m.
Proof. intros H. unfold view. cbn. destruct (s_maps s !! m) as [x|] eqn:Hm; [|done]. f_equal. apply fmap_app. by eapply H. Qed.
Lemma view_lookup s m X : view s m = Some X -> exists x, s_maps s !! m = Some x /\ X = contents_of (s_arrs s) <$> x.
Proof. unfold view. destruct (s_maps s !! m) as [x|]; [|done]. intros [= <-]. eauto. Qed.
Lemma view_lt s m X : view s m = Some X -> (m < length (s_maps s))%nat.
Proof. intros (x & H & _)%view_lookup. by eapply lookup_lt_Some. Qed.

(** All but the header maps and arrays. *)
Definition same_rest s s' : Prop := s_h s' = s_h s /\ s_bds s' = s_bds s /\ s_rps s' = s_rps s /\ s_met s' = s_met s.
Lemma rest_trans s1 s2 s3 : same_rest s1 s2 -> same_rest s2 s3 -> same_rest s1 s3.
Proof. intros (? & ? & ? & ?) (? & ? & ? & ?). repeat split; congruence. Qed.
(** Map [m] now shows [X]; other maps are as before. *)
Definition sets s s' m X : Prop := same_rest s s' /\ view s' m = Some X /\ swf s' /\ forall m', m' <> m -> view s' m' = view s m'.

Lemma new_entry s m x key l n :
  swf s -> s_maps s !! m = Some x ->
  let v := {| sl_arr := Some (length (s_arrs s)); sl_off := 0; sl_len := length l; sl_cap := length l + n |} in
  sets s (put_maps (put_arrs s (s_arrs s ++ [l ++ replicate n EmptyString])) (<[m := <[key := v]> x]> (s_maps s))) m
    (<[key := l]> (contents_of (s_arrs s) <$> x)).
Proof.
  intros Hs Hm v. split; [done|]. split; [|split].
  - unfold view. cbn. rewrite list_lookup_insert by (by eapply lookup_lt_Some). rewrite fmap_insert; unfold v; rewrite contents_new, fmap_app by (by eapply Hs). done.
  - apply sound_maps_insert; [eapply sound_maps_grow; [apply agrow_app|done]|]. apply sound_insert; [|apply make_slice_sound].
    eapply sound_map_grow; [apply agrow_app|]. by eapply Hs.
  - intros m' Hne. rewrite <- (view_app s [l ++ replicate n EmptyString]) by done. unfold view. cbn. by rewrite list_lookup_insert_ne by done.
Qed.
Lemma Set_view s m X key value : swf s -> view s m = Some X ->
  exists s', hdr_Set m key value s = (s', ORet tt) /\ sets s s' m (<[CanonicalHeaderKey key := [value]]> X).
Proof.
  intros Hs (x & Hm & ->)%view_lookup. unfold hdr_Set, ybind, the_map. rewrite Hm. cbn. eexists. split; [done|].
  apply (new_entry s m x (CanonicalHeaderKey key) [value] 0 Hs Hm).
Qed.
Lemma fill_view s m X key value : swf s -> view s m = Some X ->
  exists s', fill_in m key value s = (s', ORet tt) /\ sets s s' m (match X !! key with Some _ => X | None => <[key := [value]]> X end).
Proof.
  intros Hs (x & Hm & ->)%view_lookup. unfold fill_in, ybind, the_map. rewrite Hm, lookup_fmap. destruct (x !! key); cbn.
  - eexists. split; [done|]. split; [done|]. split; [unfold view; by rewrite Hm|]. done.
  - eexists. split; [done|]. apply (new_entry s m x key [value] 0 Hs Hm).
Qed.
Lemma Del_view s m X key : swf s -> view s m = Some X ->
  exists s', hdr_Del m key s = (s', ORet tt) /\ sets s s' m (delete (CanonicalHeaderKey key) X).
Proof.
  intros Hs (x & Hm & ->)%view_lookup. unfold hdr_Del, ybind, the_map. rewrite Hm. cbn. eexists. split; [done|].
  split; [done|]. split; [|split].
  - unfold view. cbn. rewrite list_lookup_insert by (by eapply lookup_lt_Some). by rewrite fmap_delete.
  - apply sound_maps_insert; [done|]. apply sound_delete. by eapply Hs.
  - intros m' Hne. unfold view. cbn. by rewrite list_lookup_insert_ne.
Qed.
Lemma contents_put arrs a i x v : sl_arr v <> Some a -> contents_of (<[a := <[i := x]> (default [] (arrs !! a))]> arrs) v = contents_of arrs v.
Proof. unfold contents_of. destruct (sl_arr v) as [a'|]; [|done]. intros H. rewrite list_lookup_insert_ne; [done|congruence]. Qed.
Lemma append_view s m X key value :
  swf s -> view s m = Some X -> (forall m', unshared s m key m') ->
  exists s', ybind (the_map m) (fun x => ybind (append_to U (default nil_slice (x !! key)) value) (fun v => put_map m (<[key := v]> x))) s = (s', ORet tt) /\
  sets s s' m (<[key := default [] (X !! key) ++ [value]]> X).
Proof.
  intros Hs (x & Hm & ->)%view_lookup Hun. unfold ybind at 1, the_map. rewrite Hm, lookup_fmap. unfold ybind, append_to.
  destruct (x !! key) as [v|] eqn:Hv; cbn [default fmap option_fmap option_map]; unfold default, from_option, id.
  - destruct (sl_arr v) as [a|] eqn:Ha.
    + assert (Hsv : sound_slice (s_arrs s) v) by (by eapply Hs). unfold sound_slice in Hsv. rewrite Ha in Hsv. destruct Hsv as (l & Hl & Hlen & Hcap).
      destruct (sl_len v <? sl_cap v)%nat eqn:Hlt.
      * eexists. split; [done|]. split; [done|]. split; [|split].
        -- unfold view. cbn. rewrite list_lookup_insert by (by eapply lookup_lt_Some). rewrite fmap_insert. f_equal. apply map_eq. intros k'.
           destruct (decide (k' = key)) as [->|Hne].
           ++ rewrite !lookup_insert. unfold contents_of. cbn. rewrite Ha, Hl, list_lookup_insert by (by eapply lookup_lt_Some). f_equal.
              apply list_eq. intros i. destruct (decide (i < sl_len v)%nat) as [Hi|Hi].
              ** rewrite lookup_take, lookup_drop, list_lookup_insert_ne by lia. rewrite lookup_app_l by (rewrite take_length, drop_length; lia).
                 by rewrite lookup_take, lookup_drop by lia.
              ** rewrite lookup_app_r by (rewrite take_length; lia). rewrite take_length, drop_length.
                 replace (sl_len v `min` (length l - sl_off v))%nat with (sl_len v) by lia.
                 destruct (decide (i = sl_len v)) as [->|Hi2].
                 --- rewrite lookup_take, lookup_drop, list_lookup_insert by lia. by rewrite Nat.sub_diag.
                 --- rewrite lookup_take_ge by lia. symmetry. apply lookup_ge_None. cbn. lia.
           ++ rewrite !lookup_insert_ne, !lookup_fmap by done. destruct (x !! k') as [v'|] eqn:Hv'; [|done]. cbn. f_equal.
              apply contents_put. intros Ha'. apply (Hun m k' a); [congruence| |].
              ** unfold array_of. by rewrite Hm, Hv.
              ** unfold array_of. by rewrite Hm, Hv'.
        -- apply sound_maps_insert; [eapply sound_maps_grow; [apply agrow_insert|done]|]. apply sound_insert.
           { eapply sound_map_grow; [apply agrow_insert|]. by eapply Hs. }
           unfold sound_slice. cbn. rewrite list_lookup_insert by (by eapply lookup_lt_Some). eexists. split; [done|]. rewrite insert_length, Hl. cbn. lia.
        -- intros m' Hne. unfold view, mid in *. cbn. rewrite list_lookup_insert_ne by done. destruct (s_maps s !! m') as [y|] eqn:Hm'; [|done]. f_equal.
           apply map_fmap_ext. intros k' v' Hv'. apply contents_put. intros Ha'. apply (Hun m' k' a); [congruence| |].
           ++ unfold array_of, mid in *. by rewrite Hm, Hv.
           ++ unfold array_of, mid in *. by rewrite Hm', Hv'.
      * eexists. split; [done|]. apply (new_entry s m x key (contents_of (s_arrs s) v ++ [value]) (u_grow U (sl_len v)) Hs Hm).
    + eexists. split; [done|]. assert (Hc : contents_of (s_arrs s) v = []) by (unfold contents_of; by rewrite Ha).
      rewrite Hc. apply (new_entry s m x key [value] (u_grow U 0) Hs Hm).
  - eexists. split; [done|]. apply (new_entry s m x key [value] (u_grow U 0) Hs Hm).
Qed.
Lemma Add_view s m X key value :
  swf s -> view s m = Some X -> (forall m', unshared s m (CanonicalHeaderKey key) m') ->
  exists s', hdr_Add U m key value s = (s', ORet tt) /\
  sets s s' m (<[CanonicalHeaderKey key := default [] (X !! CanonicalHeaderKey key) ++ [value]]> X).
Proof. apply append_view. Qed.

(** Headers() makes a map if there is none. *)
Lemma Headers_view s b x X : swf s -> s_bds s !! b = Some x -> hview s (bd_hdrs x) = Some X ->
  exists s' m, bd_Headers b s = (s', ORet m) /\ view s' m = Some X /\ swf s' /\
    s_bds s' = <[b := {| bd_gen := bd_gen x; bd_code := bd_code x; bd_hdrs := Some m; bd_body := bd_body x; bd_err := bd_err x |}]> (s_bds s) /\
    s_h s' = s_h s /\ s_rps s' = s_rps s /\ s_met s' = s_met s /\
    (forall m' Y, view s m' = Some Y -> view s' m' = Some Y) /\
    (bd_hdrs x = Some m \/ bd_hdrs x = None /\ view s m = None) /\
    (forall key, (forall m0, bd_hdrs x = Some m0 -> forall m', unshared s m0 key m') -> forall m', unshared s' m key m').
Proof.
  intros Hs Hb HX. unfold bd_Headers, ybind at 1, the_bd. rewrite Hb. destruct (bd_hdrs x) as [m|] eqn:Hh.
  - exists s, m. split; [done|]. split; [done|]. split; [done|]. split.
    { rewrite list_insert_id; [done|]. rewrite Hb. destruct x; cbn in *; by rewrite Hh. }
    split; [done|]. split; [done|]. split; [done|]. split; [done|]. split; [by left|]. intros key H. by apply H.
  - cbn in HX. injection HX as <-. eexists _, _. split; [reflexivity|]. cbn.
    assert (Hv : forall m' Y, view s m' = Some Y -> view (put_bds (put_maps s (s_maps s ++ [∅])) (<[b:=bd_set_hdrs x (Some (length (s_maps s)))]> (s_bds s))) m' = Some Y).
    { intros m' Y (y & Hy & ->)%view_lookup. unfold view. cbn. by rewrite (lookup_app_l_Some _ _ _ _ Hy). }
    split. { unfold view. cbn. rewrite lookup_app_r, Nat.sub_diag by done; cbn; by rewrite fmap_empty. }
    split. { apply sound_maps_app; [done|apply sound_empty]. }
    split; [done|]. split; [done|]. split; [done|]. split; [done|]. split; [done|]. split.
    { right. split; [done|]. unfold view. by rewrite lookup_ge_None_2 by lia. }
    intros key _ m' key' a _. unfold array_of at 1. cbn. rewrite lookup_app_r, Nat.sub_diag by done. cbn. by rewrite lookup_empty.
Qed.
(** A header operation after Headers(). *)
Lemma Headers_then s b x X (f : mid -> M unit) X' :
  swf s -> s_bds s !! b = Some x -> hview s (bd_hdrs x) = Some X ->
  (forall s1 m, bd_Headers b s = (s1, ORet m) -> view s1 m = Some X -> swf s1 ->
     (forall key, (forall m0, bd_hdrs x = Some m0 -> forall m', unshared s m0 key m') -> forall m', unshared s1 m key m') ->
     exists s', f m s1 = (s', ORet tt) /\ sets s1 s' m X') ->
  exists s' m, ybind (bd_Headers b) f s = (s', ORet tt) /\ swf s' /\
    changes s s' b x {| bd_gen := bd_gen x; bd_code := bd_code x; bd_hdrs := Some m; bd_body := bd_body x; bd_err := bd_err x |} X' [].
Proof.
  intros Hs Hb HX Hf. destruct (Headers_view s b x X Hs Hb HX) as (s1 & m & H1 & Hv & Hs1 & Hbd & Hh & Hr & Hm & Hall & Hor & Hun).
  destruct (Hf s1 m H1 Hv Hs1 Hun) as (s' & H2 & (Rh & Rb & Rr & Rm) & Hv2 & Hs2 & Hoth).
  exists s', m. split; [unfold ybind; by rewrite H1|]. split; [done|]. split; [congruence|]. split; [done|]. split; [congruence|]. split; [congruence|].
  split. { rewrite Rh, Hh, app_nil_r. by destruct (s_h s). }
  intros m' Y Hm' Hne. rewrite Hoth; [by apply Hall|]. intros ->. destruct Hor as [?|[_ ?]]; [done|]. congruence.
Qed.
Lemma Headers_Set s b x X key value : swf s -> s_bds s !! b = Some x -> hview s (bd_hdrs x) = Some X ->
  exists s' m, ybind (bd_Headers b) (fun m => hdr_Set m key value) s = (s', ORet tt) /\ swf s' /\
    changes s s' b x {| bd_gen := bd_gen x; bd_code := bd_code x; bd_hdrs := Some m; bd_body := bd_body x; bd_err := bd_err x |}
      (<[CanonicalHeaderKey key := [value]]> X) [].
Proof. intros Hs Hb HX. apply (Headers_then s b x X); try done. intros s1 m _ Hv Hs1 _. by apply Set_view. Qed.
Lemma Headers_Add s b x X key value : swf s -> s_bds s !! b = Some x -> hview s (bd_hdrs x) = Some X ->
  (forall m m', bd_hdrs x = Some m -> unshared s m (CanonicalHeaderKey key) m') ->
  exists s' m, ybind (bd_Headers b) (fun m => hdr_Add U m key value) s = (s', ORet tt) /\ swf s' /\
    changes s s' b x {| bd_gen := bd_gen x; bd_code := bd_code x; bd_hdrs := Some m; bd_body := bd_body x; bd_err := bd_err x |}
      (<[CanonicalHeaderKey key := default [] (X !! CanonicalHeaderKey key) ++ [value]]> X) [].
Proof. intros Hs Hb HX Hun. apply (Headers_then s b x X); try done. intros s1 m _ Hv Hs1 Hun1. apply Add_view; try done. apply Hun1. auto. Qed.
Lemma Headers_Del s b x X key : swf s -> s_bds s !! b = Some x -> hview s (bd_hdrs x) = Some X ->
  exists s' m, ybind (bd_Headers b) (fun m => hdr_Del m key) s = (s', ORet tt) /\ swf s' /\
    changes s s' b x {| bd_gen := bd_gen x; bd_code := bd_code x; bd_hdrs := Some m; bd_body := bd_body x; bd_err := bd_err x |}
      (delete (CanonicalHeaderKey key) X) [].
Proof. intros Hs Hb HX. apply (Headers_then s b x X); try done. intros s1 m _ Hv Hs1 _. by apply Del_view. Qed.

(** Copies of header maps. *)
Lemma copy_entries_view (arr0 : list (list string)) (l : list (string * slice_)) : forall (dst : gmap string slice_) s, NoDup l.*1 -> (forall k v, (k, v) ∈ l -> sound_slice (s_arrs s) v) ->
  (forall k, k ∈ l.*1 -> dst !! k = None) -> sound_map (s_arrs s) dst ->
  (forall k v, (k, v) ∈ l -> contents_of (s_arrs s) v = contents_of arr0 v) ->
  exists arrs' dst', copy_entries l dst s = (put_arrs s (s_arrs s ++ arrs'), ORet dst') /\
    contents_of (s_arrs s ++ arrs') <$> dst' = (contents_of arr0 <$> (list_to_map l : gmap string slice_)) ∪ (contents_of (s_arrs s) <$> dst).
Proof.
  induction l as [|[key v] l IH]; intros dst s Hnd Hsnd Hdst Hsd Hc; cbn [copy_entries].
  - exists [], dst. rewrite app_nil_r. split; [by destruct s|]. rewrite list_to_map_nil, fmap_empty. by rewrite (left_id_L ∅ (∪)).
  - apply NoDup_cons in Hnd as [Hnin Hnd]. cbn in Hnin. unfold ybind at 1. unfold copyStrings.
    assert (Hv : sound_slice (s_arrs s) v) by (apply (Hsnd key); left).
    assert (Hcv : contents_of arr0 v = contents_of (s_arrs s) v) by (symmetry; apply (Hc key); left).
    destruct (sl_len v =? 0)%nat eqn:Hl.
    + destruct (IH (<[key := nil_slice]> dst) s) as (arrs' & dst' & -> & H).
      * done.
      * intros k v' Hin. apply (Hsnd k). by right.
      * intros k Hin. destruct (decide (k = key)) as [->|]; [done|]. rewrite lookup_insert_ne by done. apply Hdst. cbn. by right.
      * by apply sound_insert.
      * intros k v' Hin. apply (Hc k). by right.
      * exists arrs', dst'. split; [done|]. rewrite H, list_to_map_cons. rewrite !fmap_insert, Hcv.
        assert (contents_of (s_arrs s) v = []) as ->. { unfold contents_of. destruct (sl_arr v) as [a|]; [|done]. destruct (s_arrs s !! a); [|done]. replace (sl_len v) with 0%nat by lia. done. }
        rewrite <- insert_union_l, <- insert_union_r; [done|]. rewrite lookup_fmap. rewrite not_elem_of_list_to_map_1; done.
    + set (c := contents_of (s_arrs s) v). cbn beta iota.
      rewrite make_slice_run. set (w := {| sl_arr := _ |}). set (s1 := put_arrs s _).
      assert (Hs1 : s_arrs s1 = s_arrs s ++ [c ++ replicate 0 EmptyString]) by done.
      destruct (IH (<[key := w]> dst) s1) as (arrs' & dst' & -> & H).
      * done.
      * intros k v' Hin. eapply sound_grow; [apply agrow_app|]. apply (Hsnd k). by right.
      * intros k Hin. destruct (decide (k = key)) as [->|]; [done|]. rewrite lookup_insert_ne by done. apply Hdst. cbn. by right.
      * apply sound_insert; [eapply sound_map_grow; [apply agrow_app|done]|apply make_slice_sound].
      * intros k v' Hin. rewrite Hs1, contents_app; [apply (Hc k); by right|]. apply (Hsnd k). by right.
      * exists ([c ++ replicate 0 EmptyString] ++ arrs'), dst'. split; [unfold s1, put_arrs; cbn; by rewrite <- app_assoc|].
        rewrite Hs1, <- app_assoc in H. rewrite H, list_to_map_cons. rewrite !fmap_insert, Hcv. unfold w. rewrite contents_new. fold c.
        rewrite fmap_app by done.
        rewrite <- insert_union_l, <- insert_union_r; [done|]. rewrite lookup_fmap. rewrite not_elem_of_list_to_map_1; done.
Qed.
(** copyHeaders: a new map with arrays of its own, or nil, showing the same header. *)
Lemma copy_entries_fresh (l : list (string * slice_)) n : forall (dst : gmap string slice_) s s' dst',
  copy_entries l dst s = (s', ORet dst') -> (n <= length (s_arrs s))%nat ->
  (forall key v a, dst !! key = Some v -> sl_arr v = Some a -> (n <= a)%nat) ->
  forall key v a, dst' !! key = Some v -> sl_arr v = Some a -> (n <= a)%nat.
Proof.
  induction l as [|[key v] l IH]; intros dst s s' dst'; cbn [copy_entries].
  - intros [= <- <-]. done.
  - intros H Hn Hd. ystep H. unfold copyStrings in E. destruct (sl_len v =? 0)%nat.
    + injection E as <- <-. eapply IH; [exact H|done|]. intros k v' a'. rewrite lookup_insert_Some. intros [[<- <-]|[_ ?]]; [done|eauto].
    + rewrite make_slice_run in E. injection E as <- <-. eapply IH; [exact H|cbn; rewrite app_length; lia|].
      intros k v' a'. rewrite lookup_insert_Some. intros [[<- <-]|[_ ?]]; [|eauto]. cbn. intros [= <-]. done.
Qed.
Lemma copyHeaders_view s o X : swf s -> hview s o = Some X ->
  exists s' o', copyHeaders o s = (s', ORet o') /\ hview s' o' = Some X /\ swf s' /\ same_rest s s' /\
    (exists l, s_arrs s' = s_arrs s ++ l) /\ (exists l, s_maps s' = s_maps s ++ l) /\
    (forall m Y, view s m = Some Y -> view s' m = Some Y) /\
    (forall m, o' = Some m -> m = length (s_maps s) /\ forall key a, array_of s' m key = Some a -> (length (s_arrs s) <= a)%nat).
Proof.
  intros Hs HX. pose proof (s_copyHeaders o s Hs) as Hs'. unfold copyHeaders in *. destruct o as [m|].
  - cbn in HX. apply view_lookup in HX as (x & Hm & ->). unfold ybind at 1, the_map in Hs'. unfold ybind at 1, the_map. rewrite Hm in *.
    destruct (bool_decide (x = ∅)) eqn:Hx.
    + apply bool_decide_eq_true in Hx as ->. exists s, None. split; [done|]. split; [by rewrite fmap_empty|]. split; [done|]. split; [done|].
      split; [exists []; by rewrite app_nil_r|]. split; [exists []; by rewrite app_nil_r|]. done.
    + destruct (copy_entries_view (s_arrs s) (map_to_list x) ∅ s) as (arrs' & dst' & Hrun & Hv).
      * apply NoDup_fst_map_to_list.
      * intros k v Hin%elem_of_map_to_list. by eapply Hs.
      * done.
      * apply sound_empty.
      * done.
      * pose proof (copy_entries_fresh _ (length (s_arrs s)) _ _ _ _ Hrun (le_n _)) as Hfr.
        unfold ybind in Hs' |- *. rewrite Hrun in *. cbn in Hs' |- *. eexists _, _. split; [done|].
        assert (Hold : forall m Y, view s m = Some Y -> view (put_maps (put_arrs s (s_arrs s ++ arrs')) (s_maps s ++ [dst'])) m = Some Y).
        { intros m0 Y (y & Hy & ->)%view_lookup. unfold view. cbn. rewrite (lookup_app_l_Some _ _ _ _ Hy). f_equal. apply fmap_app. by eapply Hs. }
        split. { cbn. unfold view. cbn. rewrite lookup_app_r, Nat.sub_diag by done. cbn. rewrite Hv, list_to_map_to_list, fmap_empty. by rewrite (right_id_L ∅ (∪)). }
        split; [done|]. split; [done|]. split; [by eexists|]. split; [by eexists|]. split; [done|].
        intros m0 [= <-]. split; [done|]. intros key a. unfold array_of. cbn. rewrite lookup_app_r, Nat.sub_diag by done. cbn.
        destruct (dst' !! key) as [v|] eqn:Hk; [|done]. intros Ha. eapply Hfr; [|done|done]. intros ? ? ? H0. by rewrite lookup_empty in H0.
  - injection HX as <-. exists s, None. split; [done|]. split; [done|]. split; [done|]. split; [done|].
    split; [exists []; by rewrite app_nil_r|]. split; [exists []; by rewrite app_nil_r|]. done.
Qed.
End View.
