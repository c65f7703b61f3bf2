(** * C49: Builder header helpers produce the documented header *)
From stdpp Require Import gmap.
From Verif Require Import BuilderSpec WitnessResp.
From Verif Require BuilderMain TextFacts.

(** WithHeader, WithoutHeader, WithContentType, WithContentLanguage,
    WithContentEncoding, WithETag and WithDigest: the header afterwards is
    [header_after], and nothing else changes. *)
Theorem C49_header_helpers : forall (V : Type) (U : uenv V) (fuel : nat), forall s b x X f X',
  treaches U fuel s -> s_bds s !! b = Some x -> hview s (bd_hdrs x) = Some X ->
  header_helper f -> safe_append s x f -> header_after U f X = Some X' ->
  exists s' m, texec U fuel (TDo (RBuilder b f)) s = (s', ORet YUnit) /\
    changes s s' b x {| bd_gen := bd_gen x; bd_code := bd_code x; bd_hdrs := Some m; bd_body := bd_body x; bd_err := bd_err x |} X' [].
Proof. exact @BuilderMain.header_helpers. Qed.
Print Assumptions C49_header_helpers.

(** They change nothing when they raise. *)
Theorem C49_header_helpers_raise : forall (V : Type) (U : uenv V) (fuel : nat), forall s b X f,
  header_helper f -> header_after U f X = None ->
  exists e, texec U fuel (TDo (RBuilder b f)) s = (s, OPanic e).
Proof. exact @BuilderMain.header_helpers_raise. Qed.
Print Assumptions C49_header_helpers_raise.

(** WithStatus, WithBody, WithError and WithPageGenerator set their own field. *)
Theorem C49_setters : forall (V : Type) (U : uenv V) (fuel : nat), forall s b x X f x',
  s_bds s !! b = Some x -> hview s (bd_hdrs x) = Some X -> setter f -> set_field f x = Some x' ->
  exists s', texec U fuel (TDo (RBuilder b f)) s = (s', ORet YUnit) /\ changes s s' b x x' X [].
Proof. exact @BuilderMain.setters. Qed.
Print Assumptions C49_setters.

Theorem C49_setters_raise : forall (V : Type) (U : uenv V) (fuel : nat), forall s b x f,
  s_bds s !! b = Some x -> setter f -> set_field f x = None ->
  texec U fuel (TDo (RBuilder b f)) s = (s, OPanic PAssert).
Proof. exact @BuilderMain.setters_raise. Qed.
Print Assumptions C49_setters_raise.

(** WithJSON, WithPrettyJSON, WithProto and WithProtoText set the body and the
    content type.  The body of WithJSON is empty: see C22. *)
Theorem C49_encoders : forall (V : Type) (U : uenv V) (fuel : nat), forall s b x X f src ctype g,
  treaches U fuel s -> s_bds s !! b = Some x -> hview s (bd_hdrs x) = Some X ->
  encoding_of f = Some (Some (inl src), ctype, g) -> zlen (g src) <= max_slice ->
  exists s' m i o, texec U fuel (TDo (RBuilder b f)) s = (s', ORet YUnit) /\
    changes s s' b x {| bd_gen := bd_gen x; bd_code := bd_code x; bd_hdrs := Some m; bd_body := Some i; bd_err := bd_err x |}
      (<["Content-Type" := [ctype]]> X) [o] /\
    serves U fuel s s' i (g src).
Proof. exact @BuilderMain.encoders. Qed.
Print Assumptions C49_encoders.

Theorem C49_encoders_raise : forall (V : Type) (U : uenv V) (fuel : nat), forall s b f src ctype g,
  encoding_of f = Some (src, ctype, g) ->
  (forall e, src = Some (inr e) -> texec U fuel (TDo (RBuilder b f)) s = (s, OPanic (PError e))) /\
  (src = None -> texec U fuel (TDo (RBuilder b f)) s = (s, OPanic PAssert)).
Proof. exact @BuilderMain.encoders_raise. Qed.
Print Assumptions C49_encoders_raise.

(** Two spellings name the same header if and only if they differ in case only. *)
Theorem C49_same_header : forall n1 n2, token_name n1 -> token_name n2 ->
  CanonicalHeaderKey n1 = CanonicalHeaderKey n2 <-> lower_case n1 = lower_case n2.
Proof. exact TextFacts.same_header. Qed.
Print Assumptions C49_same_header.

Theorem C49_canonical_twice : forall n, CanonicalHeaderKey (CanonicalHeaderKey n) = CanonicalHeaderKey n.
Proof. exact TextFacts.canonical_twice. Qed.
Print Assumptions C49_canonical_twice.

(** The digest can be had back from the header. *)
Theorem C49_base64 : forall d, b64_decode (list_ascii_of_string (b64_encode d)) = d.
Proof. exact TextFacts.b64_round_trip. Qed.
Print Assumptions C49_base64.

Definition prog49 : list tcmd := map TDo [RNewBuilder; RBuilder 0 (WithHeader "x-y" "1" false); RBuilder 0 (WithHeader "X-y" "2" true)].
Example C49_example :
  let s := after (web_ok []) 9 (start [] 1) prog49 in
  treaches (web_ok []) 9 s /\
  match s_bds s !! 0%nat with
  | Some x => bool_decide (hview s (bd_hdrs x) = Some {[ "X-Y" := ["1"; "2"] ]}) = true /\ bd_hdrs x = Some 1%nat /\
      safe_append s x (WithHeader "X-y" "3" true) /\
      bool_decide (header_after (web_ok []) (WithHeader "X-y" "3" true) {[ "X-Y" := ["1"; "2"] ]} = Some {[ "X-Y" := ["1"; "2"; "3"] ]}) = true
  | None => False
  end /\
  token_name "x-y" /\ CanonicalHeaderKey "x-y" = "X-Y" /\ b64_encode (bs "abcd") = "YWJjZA==".
Proof.
  split; [apply after_reaches|]. split; [|split; [repeat constructor|by vm_compute]]. vm_compute (s_bds _ !! _). split; [by vm_compute|].
  split; [by vm_compute|]. split; [|by vm_compute]. intros key m m' [= <-] [= <-] key' a Hne Ha Ha'.
  assert (H : forall m' key', array_of (after (web_ok []) 9 (start [] 1) prog49) m' key' = Some a -> (m', key') = (1%nat, "X-Y")).
  2: { apply H in Ha'. by apply Hne. }
  clear. intros m key H. unfold array_of in H.
  assert (E : s_maps (after (web_ok []) 9 (start [] 1) prog49) = [∅; {[ "X-Y" := {| sl_arr := Some 1%nat; sl_off := 0; sl_len := 2; sl_cap := 3 |} ]}]).
  { apply (bool_decide_unpack _). by vm_compute. }
  rewrite E in H. clear E. destruct m as [|[|m]]; cbn [lookup list_lookup] in H; [by rewrite lookup_empty in H| |done].
  destruct (decide (key = "X-Y")) as [->|Hk]; [done|]. by rewrite lookup_singleton_ne in H.
Qed.
