(** * errors.Is is being in the chain *)
From stdpp Require Import base relations.
From Verif Require Import IsSpec Text.

Lemma is_chain e t : errors_Is e t = true <-> rtc carries e t.
Proof.
  split.
  - induction e; cbn [errors_Is]; intros H;
      (apply orb_true_iff in H as [H|H]; [apply bool_decide_eq_true in H; by rewrite H; apply rtc_refl|]); try done;
      (eapply rtc_l; [constructor|by auto]).
  - induction 1 as [e|e e' t Hc _ IH].
    + destruct e; cbn [errors_Is]; by rewrite bool_decide_eq_true_2.
    + destruct Hc; cbn [errors_Is]; by rewrite IH, orb_true_r.
Qed.
