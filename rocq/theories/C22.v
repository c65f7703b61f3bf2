(** * C22: FromJSON serves the encoded value *)
From stdpp Require Import gmap.
From Verif Require Import JsonSpec WitnessResp.
From Verif Require JsonProofs.

(** The encoding of {"a":1}, and the Body made from it: it is empty. *)
Theorem C22_refuted : exists (V : Type) (U : uenv V) fuel s src,
  src = bs "{""a"":1}" /\ treaches U fuel s /\
  (thistory U fuel s [TDo (RJSON (inl src) false); TDo (RB (Call 1 BytesRemaining)); TDo (RB (Call 1 (Read (buf 9))))]).2 =
  [ORet (YBody (RBody 1 None)); ORet (YBody (RInt 0)); ORet (YBody (RRead 0 (buf 9) (Some EOF)))].
Proof. exact JsonProofs.json_lost. Qed.
Print Assumptions C22_refuted.

(** What FromJSON does instead: whatever the encoder produced, the Body serves no bytes. *)
Theorem C22_always_empty : forall (V : Type) (U : uenv V) (fuel : nat), forall s src,
  exists s' i, texec U fuel (TDo (RJSON (inl src) false)) s = (s', ORet (YBody (RBody i None))) /\ serves U fuel s s' i [].
Proof. exact @JsonProofs.compact_json. Qed.
Print Assumptions C22_always_empty.

Example C22_example :
  (texec (web_ok []) 9 (TDo (RJSON (inl (bs "{""a"":1}")) false)) (start [] 0)).2 = ORet (YBody (RBody 1 None)).
Proof. vm_compute. done. Qed.
