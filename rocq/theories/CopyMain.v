(** * A Response and its copy send the same status and headers (proofs) *)
From stdpp Require Import gmap.
From Verif Require Import RespFacts ServeSpec ServeProofs ServeMain.

Section C.
Context {V : Type} (U : uenv V) (fuel : nat).
Implicit Types s : state V.
Lemma serve_rps s r x k by_ u s' o : s_rps s !! r = Some x -> target s k = Some (by_, u) ->
  texec U fuel (TDo (RServe r k)) s = (s', o) -> s_rps s' = s_rps s.
Proof.
  intros Hr Ht H. rewrite (texec_serve U fuel s r x k Hr) in H. unfold ybind in H.
  destruct (rp_Serve U fuel x k s) as [s0 o0] eqn:Hs0. assert (s0 = s') as -> by (destruct o0; by injection H as <- _). clear H.
  destruct (serve_pushes U fuel s x k by_ u Ht) as (s1 & l & e & Ho & _ & _ & Hs). rewrite Hs in Hs0.
  assert (Hr1 : s_rps s1 = s_rps s) by (destruct Ho as (w & -> & _); done).
  destruct e as [[err|p]|]; [by injection Hs0 as <- _..|].
  pose proof (ow_target _ _ k Ho) as Ht1. rewrite Ht in Ht1. rewrite <- Hr1.
  destruct (rest_run U fuel s1 x k by_ u s' o0 Ht1 Hs0) as [(_ & -> & _)|(h' & hdrs & s3 & w & ow & -> & _ & Hc & _ & Hor)]; [done|].
  destruct (copy_to_log s1 (u_map U (v_v (world s1)) u) hdrs) as [maps' Hm]. rewrite Hc in Hm. cbn in Hm. subst s3.
  destruct Hor as [(_ & _ & ->)|(res & tail & _ & _ & _ & _ & _ & _ & _ & Hx & _)]; [done|exact Hx].
Qed.
Lemma copy_views s r x s1 r2 : s_rps s !! r = Some x -> texec U fuel (TDo (RCopy r)) s = (s1, ORet (YNew (Some r2) None)) ->
  (forall m, view s1 m = view s m) /\ s_rps s1 !! r = Some x /\
  exists j, s_rps s1 !! r2 = Some {| rp_code := rp_code x; rp_hdrs := rp_hdrs x; rp_body := j; rp_err := rp_err x |}.
Proof.
  intros Hr H. cbn in H. unfold ybind at 1, the_rp in H. rewrite Hr in H. unfold rp_Copy in H. unfold ybind at 1 in H. unfold ybind at 1 in H.
  assert (Hc : exists h2 j err, copyBody U fuel (rp_body x) s = (put_h s h2, ORet (j, err)) \/ (forall s2 a, copyBody U fuel (rp_body x) s <> (s2, ORet a))).
  { unfold copyBody. destruct (rp_body x) as [i|]; [|exists (s_h s), None, None; left; by destruct s]. unfold ybind, body_cmd.
    destruct (uexec _ _ _ _) as [h2 [y|e|]]; [|exists h2, None, None; by right..]. destruct y as [| | | | |j err| | |]; try (exists h2, None, None; by right). exists h2, (Some j), err. by left. }
  destruct Hc as (h2 & j & err & [Hc|Hc]).
  - rewrite Hc in H. destruct err as [e|]; [done|]. cbn in H. injection H as <- <-. split; [done|]. cbn. split; [by apply lookup_app_l_Some|].
    exists j. by apply list_lookup_middle.
  - exfalso. destruct (copyBody U fuel (rp_body x) s) as [s2 [a|e|]]; try done. by eapply Hc.
Qed.

Theorem same_headers : forall s r x s1 r2 a b k by_ u h X Y s2 o new k' by' u' h' Y' s3 o' new',
  s_rps s !! r = Some x -> texec U fuel (TDo (RCopy r)) s = (s1, ORet (YNew (Some r2) None)) ->
  a = r \/ a = r2 -> b = r \/ b = r2 -> hview s (rp_hdrs x) = Some X -> rp_hdrs x <> Some h ->
  target s1 k = Some (by_, u) -> (forall v, u_map U v u = h) -> view s1 h = Some Y ->
  serving U fuel s1 a k s2 o new -> status_sent new ->
  target s2 k' = Some (by', u') -> (forall v, u_map U v u' = h') -> view s2 h' = Some Y' ->
  serving U fuel s2 b k' s3 o' new' -> status_sent new' ->
  (exists l res tail, new = push_events by_ u l ++ asked by_ (rp_code x) ++ UHeader by_ u (rp_code x) res :: tail /\ Forall ordinary tail) /\
  view s2 h = Some (delete "Push" X ∪ Y) /\
  (exists l res tail, new' = push_events by' u' l ++ asked by' (rp_code x) ++ UHeader by' u' (rp_code x) res :: tail /\ Forall ordinary tail) /\
  view s3 h' = Some (delete "Push" X ∪ Y').
Proof.
  intros s r x s1 r2 a b k by_ u h X Y s2 o new k' by' u' h' Y' s3 o' new' Hr Hc Ha Hb HX Hne Ht Hu HY Hs Hst Ht' Hu' HY' Hs' Hst'.
  destruct (copy_views s r x s1 r2 Hr Hc) as (Hv & Hr1 & j & Hr2).
  assert (Hany : forall c, c = r \/ c = r2 -> exists y, s_rps s1 !! c = Some y /\ rp_code y = rp_code x /\ rp_hdrs y = rp_hdrs x).
  { intros c [->| ->]; [by exists x|]. by eexists. }
  destruct (Hany a Ha) as (y & Hy & Hyc & Hyh). destruct (Hany b Hb) as (z & Hz & Hzc & Hzh).
  assert (HX1 : hview s1 (rp_hdrs x) = Some X) by (rewrite <- HX; unfold hview; destruct (rp_hdrs x); [apply Hv|done]).
  destruct (headers U fuel s1 a y k by_ u h X Y s2 o new Hy Ht Hu ltac:(by rewrite Hyh) HY Hs Hst) as (H1 & H2 & H3). rewrite Hyc in H1.
  assert (HX2 : hview s2 (rp_hdrs x) = Some X).
  { rewrite <- HX1. unfold hview in *. destruct (rp_hdrs x) as [m|]; [|done]. apply H3. congruence. }
  assert (Hz2 : s_rps s2 !! b = Some z) by (by rewrite (serve_rps s1 a y k by_ u s2 o Hy Ht (proj1 Hs))).
  destruct (headers U fuel s2 b z k' by' u' h' X Y' s3 o' new' Hz2 Ht' Hu' ltac:(by rewrite Hzh) HY' Hs' Hst') as (H4 & H5 & _). rewrite Hzc in H4. done.
Qed.
End C.
