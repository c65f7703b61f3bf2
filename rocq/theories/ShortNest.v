(** * A Body that announces more than the Body it is made of has *)
From stdpp Require Import gmap.
From Coq Require Import ZifyBool.
From Verif Require Import NestSpec ShortSpec.
From Verif Require Import NestProofs NestMain Short.

Section Nested.
Context {W : Type} (E : env W) (fuel : nat) (h : heap W) (i : nat) (b : bobj) (g : rid -> rid).
Notation N := (nest E fuel i b g).
Lemma nested_short d early : seekable_below E fuel h i b g d early ->
  forall upfuel h1 j cs h2 os (D : nat),
  wrapped_once N upfuel 0 (upper h) h1 j cs h2 os -> announces N upfuel h1 j (Z.of_nat D) -> (length d <= D)%nat ->
  shrink_trace (served_all d early) 0 D {[ j := Pos 0 None ]} cs os /\ n_bad (h_w h2) = false.
Proof.
  intros H upfuel h1 j cs h2 os D Hw Ha HD. destruct (below_lower _ _ _ _ _ _ _ _ H) as (good & after & L & Hg). split.
  - assert (Hs : ends_at N 0%nat (nlive good) d early).
    { split; [by eapply nest_serves|]. intros w p off w' n q err Hl [Ho _] Hr. by eapply nest_past. }
    assert (Hc : cp_readerat (ev_caps N 0%nat) = true) by (by rewrite (below_caps _ _ _ _ _ _ _ _ H)).
    exact (short_at N upfuel 0%nat (nlive good) d early Hs Hc (upper h) h1 j cs h2 os D (conj eq_refl Hg) Hw Ha HD).
  - destruct Hw as (_ & cs0 & os0 & h0 & new & _ & _ & _ & H0 & H1 & H2 & _).
    eapply (history_layered E fuel i b g good after d early L _ _ _ _ _ H2).
    eapply (run_layered E fuel i b g good after d early L _ _ _ _ H1).
    by eapply (history_layered E fuel i b g good after d early L _ _ _ _ _ H0).
Qed.
End Nested.
