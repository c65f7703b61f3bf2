(** * Proof of C01 *)
From stdpp Require Import gmap.
From Verif Require Import Mem.

Lemma in_memory_cursors (W : Type) (E : env W) (fuel : nat) (h : heap W) (c : cmd) (d : bytes) :
  c = NewBytes d \/ (exists s, c = NewString s /\ list_ascii_of_string s = d) \/ (c = NewEmpty /\ d = []) ->
  go_cmd c ->
  exists h1 i, exec E fuel h c = (h1, ORet (RBody i None)) /\ h_b h !! i = None /\
  forall cs h2 os, Forall go_cmd cs -> history E fuel h1 cs = (h2, os) ->
  fam_trace (mem_family d) {[ i := At 0 false ]} cs os.
Proof.
  intros Hc Hgo.
  assert (Hd : zlen d <= max_i64).
  { destruct Hc as [->|[(s & -> & <-)|[-> ->]]]; cbn in Hgo.
    - unfold max_slice, max_i64 in *. lia.
    - assert (@length byte (list_ascii_of_string s) = String.length s) as Hl by (clear; induction s; cbn; congruence).
      unfold zlen, max_slice, max_i64 in *. rewrite Hl. lia.
    - unfold zlen, max_i64. cbn. lia. }
  destruct (mem_new E fuel h d c Hd Hc) as (h1 & Hex & Hinv).
  exists h1, (length (h_b h)). split; [done|]. split; [apply lookup_ge_None; lia|].
  intros cs h2 os Hcs Hh. by eapply mem_trace.
Qed.
