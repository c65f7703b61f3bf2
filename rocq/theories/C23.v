(** * C23: FromPrettyJSON serves the encoding with CRLF line ends *)
From stdpp Require Import gmap.
From Verif Require Import JsonSpec WitnessResp.
From Verif Require JsonProofs.

(** FromPrettyJSON serves the encoding with every LF replaced by CR LF. *)
Theorem C23_pretty : forall (V : Type) (U : uenv V) (fuel : nat), forall s src, zlen (crlf_of src) <= max_slice ->
  exists s' i, texec U fuel (TDo (RJSON (inl src) true)) s = (s', ORet (YBody (RBody i None))) /\ serves U fuel s s' i (crlf_of src).
Proof. exact @JsonProofs.pretty_json. Qed.
Print Assumptions C23_pretty.

(** The length of the result, and that the encoding can be had back. *)
Theorem C23_length : forall src : bytes, zlen (crlf_of src) = zlen src + Z.of_nat (count_occ ascii_dec src "010"%char).
Proof. exact JsonProofs.lf_count_length. Qed.
Print Assumptions C23_length.

Theorem C23_strip : forall src : bytes, strip_cr (crlf_of src) = src.
Proof. exact JsonProofs.strip_crlf. Qed.
Print Assumptions C23_strip.

(** FromProto and FromProtoText serve what Marshal returned, unchanged. *)
Theorem C23_proto : forall (V : Type) (U : uenv V) (fuel : nat), forall s raw, zlen raw <= max_slice ->
  exists s' i, texec U fuel (TDo (RProto (Some (inl raw)))) s = (s', ORet (YBody (RBody i None))) /\ serves U fuel s s' i raw.
Proof. exact @JsonProofs.proto. Qed.
Print Assumptions C23_proto.

(** If the encoder fails, or the message is nil, they panic; nothing else happens. *)
Theorem C23_fails : forall (V : Type) (U : uenv V) (fuel : nat), forall s err pretty,
  texec U fuel (TDo (RJSON (inr err) pretty)) s = (s, OPanic (PError err)) /\
  texec U fuel (TDo (RProto (Some (inr err)))) s = (s, OPanic (PError err)) /\
  texec U fuel (TDo (RProto None)) s = (s, OPanic PAssert).
Proof. exact @JsonProofs.encoding_fails. Qed.
Print Assumptions C23_fails.

Definition lf : ascii := "010".
Example C23_example :
  let d := bs "{" ++ [lf] ++ bs "}" ++ [lf] in
  zlen (crlf_of d) <= max_slice /\
  (thistory (web_ok []) 9 (start [] 0) [TDo (RJSON (inl d) true); TDo (RB (Call 1 (Read (buf 7))))]).2 =
    [ORet (YBody (RBody 1 None)); ORet (YBody (RRead 6 (bs "{" ++ ["013"; "010"]%char ++ bs "}" ++ ["013"; "010"; "000"]%char) (Some EOF)))].
Proof. vm_compute. split; [congruence|done]. Qed.
