(** * C36: Builder.Copy and WithHeaders are deep *)
From stdpp Require Import gmap.
From Verif Require Import BuilderSpec WitnessResp.
From Verif Require OwnMain.

(** The copy has the same fields and an equal header, which shares no array with
    any other header map; nothing that existed is changed. *)
Theorem C36_copy : forall (V : Type) (U : uenv V) (fuel : nat), forall s b x X s' b2,
  treaches U fuel s -> s_bds s !! b = Some x -> hview s (bd_hdrs x) = Some X ->
  texec U fuel (TDo (RCopyBuilder b)) s = (s', ORet (YNew (Some b2) None)) ->
  exists x2, b2 = length (s_bds s) /\ s_bds s' = s_bds s ++ [x2] /\ s_rps s' = s_rps s /\
    bd_gen x2 = bd_gen x /\ bd_code x2 = bd_code x /\ bd_err x2 = bd_err x /\
    (bd_body x = None /\ bd_body x2 = None \/
     exists i j, bd_body x = Some i /\ bd_body x2 = Some j /\ exec (wenv U) fuel (s_h s) (Call i Copy) = (s_h s', ORet (RBody j None))) /\
    hview s' (bd_hdrs x2) = Some X /\ apart s' (bd_hdrs x2) /\
    (forall m, bd_hdrs x2 = Some m -> view s m = None) /\
    (forall m Y, view s m = Some Y -> view s' m = Some Y).
Proof. exact @OwnMain.copy_builder. Qed.
Print Assumptions C36_copy.

(** Whatever is done with the copy and with objects made later does not show in
    the original, nor in anything else that existed before. *)
Theorem C36_copy_leaves_original : forall (V : Type) (U : uenv V) (fuel : nat), forall s b x X s' b2 cs s2 os,
  treaches U fuel s -> s_bds s !! b = Some x -> hview s (bd_hdrs x) = Some X -> returns_only U (fun m => (length (s_maps s) <= m)%nat) (bd_gen x) ->
  texec U fuel (TDo (RCopyBuilder b)) s = (s', ORet (YNew (Some b2) None)) ->
  Forall (keeps_to U (fun b' => (b2 <= b')%nat) (fun m => (length (s_maps s) <= m)%nat)) cs ->
  thistory U fuel s' (map TDo cs) = (s2, os) ->
  s_bds s2 !! b = Some x /\ hview s2 (bd_hdrs x) = Some X /\
  (forall b' y, s_bds s !! b' = Some y -> s_bds s2 !! b' = Some y) /\ (forall m Y, view s m = Some Y -> view s2 m = Some Y).
Proof. exact @OwnMain.copy_leaves_original. Qed.
Print Assumptions C36_copy_leaves_original.

(** Whatever is done with other Builders and other header maps does not show in a
    Builder whose header map shares no array: by [C36_copy], a copy. *)
Theorem C36_builder_untouched : forall (V : Type) (U : uenv V) (fuel : nat), forall s b x X cs s' os,
  treaches U fuel s -> s_bds s !! b = Some x -> hview s (bd_hdrs x) = Some X -> apart s (bd_hdrs x) ->
  Forall (keeps_to U (fun b' => b' <> b /\ leaves_alone U s (bd_hdrs x) b') (fun m => bd_hdrs x <> Some m)) cs ->
  thistory U fuel s (map TDo cs) = (s', os) ->
  s_bds s' !! b = Some x /\ hview s' (bd_hdrs x) = Some X.
Proof. exact @OwnMain.builder_untouched. Qed.
Print Assumptions C36_builder_untouched.

(** WithHeaders makes an equal header that shares no array. *)
Theorem C36_with_headers : forall (V : Type) (U : uenv V) (fuel : nat), forall s b x h X,
  treaches U fuel s -> s_bds s !! b = Some x -> hview s h = Some X ->
  exists s' m, texec U fuel (TDo (RBuilder b (WithHeaders h))) s = (s', ORet YUnit) /\
    s_bds s' = <[b := {| bd_gen := bd_gen x; bd_code := bd_code x; bd_hdrs := m; bd_body := bd_body x; bd_err := bd_err x |}]> (s_bds s) /\
    s_rps s' = s_rps s /\ s_h s' = s_h s /\
    hview s' m = Some X /\ apart s' m /\ (forall m', m = Some m' -> view s m' = None) /\ (forall m' Y, view s m' = Some Y -> view s' m' = Some Y).
Proof. exact @OwnMain.with_headers. Qed.
Print Assumptions C36_with_headers.

(** Whatever is then done with the Builder does not show in the map that was given
    to it.  The other direction is [C36_builder_untouched]. *)
Theorem C36_with_headers_leaves : forall (V : Type) (U : uenv V) (fuel : nat), forall s b x h X s' cs s2 os,
  treaches U fuel s -> s_bds s !! b = Some x -> hview s h = Some X -> returns_only U (fun m => (length (s_maps s) <= m)%nat) (bd_gen x) ->
  texec U fuel (TDo (RBuilder b (WithHeaders h))) s = (s', ORet YUnit) ->
  Forall (keeps_to U (fun b' => b' = b \/ (length (s_bds s) <= b')%nat) (fun m => (length (s_maps s) <= m)%nat)) cs ->
  thistory U fuel s' (map TDo cs) = (s2, os) ->
  hview s2 h = Some X /\ (forall m Y, view s m = Some Y -> view s2 m = Some Y).
Proof. exact @OwnMain.with_headers_leaves. Qed.
Print Assumptions C36_with_headers_leaves.

(** In programs that do not themselves make header entries share arrays, every
    Builder and every Response has its header map to itself, at any time. *)
Theorem C36_tidy_owned : forall (V : Type) (U : uenv V) (fuel : nat), forall v n maps arrs cs s os,
  sound_maps arrs maps -> distinct (tinitial v n maps arrs) -> Forall tidy cs ->
  thistory U fuel (tinitial v n maps arrs) (map TDo cs) = (s, os) ->
  (forall b x, s_bds s !! b = Some x ->
     bd_gen x = None /\ (exists X, hview s (bd_hdrs x) = Some X) /\ apart s (bd_hdrs x) /\ forall b', b' <> b -> leaves_alone U s (bd_hdrs x) b') /\
  (forall r y, s_rps s !! r = Some y ->
     (exists X, hview s (rp_hdrs y) = Some X) /\ apart s (rp_hdrs y) /\ forall b, leaves_alone U s (rp_hdrs y) b).
Proof. exact @OwnMain.tidy_owned. Qed.
Print Assumptions C36_tidy_owned.

(** Hence at any time, in whatever way calls on both sides alternate, a step on one
    side does not show on the other. *)
Theorem C36_tidy_builder : forall (V : Type) (U : uenv V) (fuel : nat), forall v n maps arrs cs s os b x X cs2 s2 os2,
  sound_maps arrs maps -> distinct (tinitial v n maps arrs) -> Forall tidy cs ->
  thistory U fuel (tinitial v n maps arrs) (map TDo cs) = (s, os) ->
  s_bds s !! b = Some x -> hview s (bd_hdrs x) = Some X ->
  Forall (keeps_to U (fun b' => b' <> b) (fun m => bd_hdrs x <> Some m)) cs2 -> thistory U fuel s (map TDo cs2) = (s2, os2) ->
  s_bds s2 !! b = Some x /\ hview s2 (bd_hdrs x) = Some X.
Proof. exact @OwnMain.tidy_builder. Qed.
Print Assumptions C36_tidy_builder.

Definition prog36 : list rcmd :=
  [RNewMap; RMap (HSet 1 "X-Y" ["1"; "2"] 5); RNewBuilder; RBuilder 0 (WithHeaders (Some 1%nat)); RBuilder 0 (WithStatus 404)].
Definition later36 : list rcmd := [RMap (HElem 3 "X-Y" 0 "3"); RBuilder 1 (WithHeader "x-y" "4" true); RMap (HCut 3 "X-Y" 1 3)].
Definition other36 : list rcmd := [RMap (HElem 2 "X-Y" 0 "5"); RBuilder 0 (WithHeader "x-y" "6" true); RMap (HDelete 1 "X-Y")].
Example C36_example :
  let s := after (web_ok []) 9 (start [] 1) (map TDo prog36) in
  let s' := after (web_ok []) 9 s [TDo (RCopyBuilder 0)] in
  let s2 := after (web_ok []) 9 s' (map TDo later36) in
  let s3 := after (web_ok []) 9 s2 (map TDo other36) in
  treaches (web_ok []) 9 s /\ Forall tidy (prog36 ++ later36 ++ other36) /\ distinct (start [] 1) /\
  length (s_maps s) = 3%nat /\ (texec (web_ok []) 9 (TDo (RCopyBuilder 0)) s).2 = ORet (YNew (Some 1%nat) None) /\
  Forall (keeps_to (web_ok []) (fun b => (1 <= b)%nat) (fun m => (3 <= m)%nat)) later36 /\
  Forall (keeps_to (web_ok []) (fun b => b <> 1%nat) (fun m => Some 3%nat <> Some m)) other36 /\
  bool_decide (view s2 2%nat = Some {[ "X-Y" := ["1"; "2"] ]} /\ view s2 3%nat = Some {[ "X-Y" := ["2"; "4"] ]} /\
    view s3 2%nat = Some {[ "X-Y" := ["5"; "2"; "6"] ]} /\ view s3 3%nat = Some {[ "X-Y" := ["2"; "4"] ]}) = true.
Proof.
  split; [apply after_reaches|]. split; [by repeat constructor|]. split.
  { intros m key m' key' a H. unfold array_of in H. destruct m as [|m]; cbn in H; [by rewrite lookup_empty in H|done]. }
  split; [by vm_compute|]. split; [by vm_compute|]. split; [repeat constructor|]. split; [by repeat constructor|]. by vm_compute.
Qed.
