(** * Examples of streams *)
From stdpp Require Import gmap.
From Coq Require Import ZifyBool.
From Verif Require Export NestSpec Witness.

Lemma lone_while s : (0 < so_chunk s)%nat ->
  streams_while (lone s) 0 (fun _ => True) (fun w => Nat.min w (length (so_data s))) (so_data s) (so_last s).
Proof.
  intros Hc. pose proof (lone_streams s Hc) as [H1 _ _ _ _ _ _]. constructor; try (intros; split; done).
  2: { intros w [|r'] p Hr _; [done|]. by split. }
  intros w p w' n q err _ Hr. split; [done|]. destruct (H1 _ _ _ _ _ _ Hr) as (A1 & A2 & A3 & A4 & A5).
  split; [done|]. split; [done|]. split; [done|]. split; [done|]. destruct A5 as [->|?]; [|by right]. left. split; [done|]. intros ->.
  revert Hr. cbn [lone ev_read]. rewrite decide_True by done. unfold demo_read.
  set (k := Nat.min _ (_ - _)). intros [= _ Hk _ He]. assert (k = 0%nat) as Hk0 by lia. rewrite Hk0 in He. cbn in He.
  destruct p; [done|]. done.
Qed.
