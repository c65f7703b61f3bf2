(** * C29: BytesWritten counts exactly the bytes accepted downstream *)
From stdpp Require Import gmap.
From Verif Require Import RespSpec WitnessResp.
From Verif Require WriterMain.

(** For every Writer in every reachable state, with int64 arithmetic. *)
Theorem C29_bytes : forall (V : Type) (U : uenv V) (fuel : nat), forall s k n,
  treaches U fuel s -> reports U fuel s k WBytesWritten (YInt n) -> n = wrap64 (total_accepted (sent_by k (wlog s))).
Proof. exact @WriterMain.bytes_counted. Qed.
Print Assumptions C29_bytes.

(** A short write, a ReadFrom and a full write. *)
Definition demo_u : uenv (list nat) := web [] (fun _ => all_caps) (fun p => (Z.min 4 (zlen p), if zlen p <=? 4 then None else Some ErrShortWrite)) (fun _ => None) reads_once.
Definition demo_s : state (list nat) :=
  after demo_u 9 (start [] 1)
    [TDo (RNewWriter (Some 1%nat) false); TDo (RWriter 2 (WWrite (bs "abcdef"))); TDo (RB (NewBytes (bs "hello")));
     TDo (RWriter 2 (WReadFrom 1)); TDo (RWriter 2 (WWrite (bs "xyz")))].
Example C29_example : treaches demo_u 9 demo_s /\ reports demo_u 9 demo_s 2 WBytesWritten (YInt 12) /\ total_accepted (sent_by 2 (wlog demo_s)) = 12.
Proof. split; [apply after_reaches|]. vm_compute. done. Qed.
