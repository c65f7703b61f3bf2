(** * Reasoning about programs of the response model *)
From stdpp Require Import gmap.
From Verif Require Export Hazard.
From Verif Require Import RespSpec.

Section Pres.
Context {V : Type}.
Implicit Types (s : state V) (R : state V -> state V -> Prop).

(** A call relates the state before and the state after, however it ends. *)
Definition pres R {A} (m : M A) : Prop := forall s, R s (m s).1.

Lemma pres_ret R `{!Reflexive R} {A} (a : A) : pres R (@yret V A a).
Proof. intros s. done. Qed.
Lemma pres_panic R `{!Reflexive R} {A} e : pres R (@mpanic V A e).
Proof. intros s. done. Qed.
Lemma pres_spin R `{!Reflexive R} {A} : pres R (@mspin V A).
Proof. intros s. done. Qed.
Lemma pres_assert R `{!Reflexive R} b : pres R (@massert V b).
Proof. intros s. by destruct b. Qed.
Lemma pres_of_opt R `{!Reflexive R} {A} (o : option A) : pres R (@of_opt V A o).
Proof. intros s. by destruct o. Qed.
Lemma pres_bind R `{!Transitive R} {A B} (m : M A) (k : A -> M B) : pres R m -> (forall a, pres R (k a)) -> pres R (ybind m k).
Proof.
  intros Hm Hk s. unfold ybind. specialize (Hm s). destruct (m s) as [s' [a|e|]]; cbn in *; [|done|done]. etrans; [done|apply Hk].
Qed.
Lemma pres_the_map R `{!Reflexive R} m : pres R (@the_map V m).
Proof. intros s. unfold the_map. by destruct (_ !! _). Qed.
Lemma pres_the_bd R `{!Reflexive R} m : pres R (@the_bd V m).
Proof. intros s. unfold the_bd. by destruct (_ !! _). Qed.
Lemma pres_the_rp R `{!Reflexive R} m : pres R (@the_rp V m).
Proof. intros s. unfold the_rp. by destruct (_ !! _). Qed.
Lemma pres_lookup_w R `{!Reflexive R} m : pres R (@lookup_w V m).
Proof. intros s. unfold lookup_w. by destruct (_ !! _). Qed.
Lemma pres_lookup_b R `{!Reflexive R} m : pres R (@lookup_b V m).
Proof. intros s. unfold lookup_b. destruct m; [by destruct (_ !! _)|done]. Qed.
Lemma pres_contents R `{!Reflexive R} v : pres R (@contents V v).
Proof. intros s. done. Qed.
Lemma pres_any_Header (U : uenv V) R `{!Reflexive R} k : pres R (any_Header U k).
Proof. intros s. unfold any_Header. destruct (_ !! _) as [[| |]|]; done. Qed.
Lemma pres_map_or_nil R `{!Reflexive R} m : pres R (@map_or_nil V m).
Proof. destruct m; [by apply pres_the_map|by apply pres_ret]. Qed.
Lemma ybind_ret {A B} (m : M A) (k : A -> M B) s s' b :
  ybind m k s = (s', ORet b) -> exists s1 a, m s = (s1, ORet a) /\ k a s1 = (s', ORet b).
Proof. unfold ybind. destruct (m s) as [s1 [a|e|]] eqn:Hm; [|done|done]. eauto. Qed.
End Pres.
Ltac ystep H := let s1 := fresh "s" in let a := fresh "a" in let H1 := fresh "E" in
  apply ybind_ret in H; destruct H as (s1 & a & H1 & H).

Create HintDb pres.
#[export] Hint Resolve pres_the_map pres_the_bd pres_the_rp pres_lookup_w pres_lookup_b pres_contents pres_any_Header pres_map_or_nil : pres.
#[export] Hint Extern 0 (Reflexive _) => apply _ : pres.
(** Takes a program apart as far as known calls. *)
Ltac pres1 :=
  match goal with
  | |- pres _ (yret _) => apply pres_ret
  | |- pres _ (mpanic _) => apply pres_panic
  | |- pres _ mspin => apply pres_spin
  | |- pres _ (massert _) => apply pres_assert
  | |- pres _ (of_opt _) => apply pres_of_opt
  | |- Reflexive _ => apply _
  | |- Transitive _ => apply _
  | |- forall _, _ => intros ?
  | |- pres _ _ => progress (eauto with pres nocore)
  | |- pres _ (ybind _ _) => apply pres_bind
  | |- pres _ (match ?x with _ => _ end) => destruct x
  | |- pres _ (let '(_, _) := ?x in _) => destruct x
  end.
Ltac pres_go := repeat pres1.
