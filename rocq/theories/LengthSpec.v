(** * Vocabulary for the Content-Length that Build fills in *)
From stdpp Require Import gmap.
From Coq Require Import DecimalString.
From Verif Require Export DeliverSpec.

(** In [s] the Builder [b] has the body [j] and no Content-Length of its own, and
    Build makes the Response [p] of it. *)
Definition builds {V} (U : uenv V) (fuel : nat) (s : state V) (b : nat) (j : nat) (s' : state V) (p : nat) : Prop :=
  treaches U fuel s /\
  (exists x X, s_bds s !! b = Some x /\ bd_body x = Some j /\ hview s (bd_hdrs x) = Some X /\ X !! "Content-Length" = None) /\
  texec U fuel (TDo (RBuild b)) s = (s', ORet (YHandle (Some p))).

(** The Response [p] has the body [j] and the Content-Length [v], if any. *)
Definition labelled {V} (s : state V) (p : nat) (j : nat) (v : option (list string)) : Prop :=
  exists y m X, s_rps s !! p = Some y /\ rp_body y = Some j /\ rp_hdrs y = Some m /\ view s m = Some X /\ X !! "Content-Length" = v.
(** In decimal. *)
Definition decimal (n : Z) : list string := [NilZero.string_of_int (Z.to_int n)].
