(** * A request that is counted wrong (proofs) *)
From stdpp Require Import gmap.
From Verif Require Import ReplySpec WitnessServe.

Lemma saloon_reaches {W} (U : uenv (W * bytes)) fuel (w : W) n cs : treaches U fuel (after U fuel (open_saloon w n) cs).
Proof.
  unfold after, open_saloon. eexists _, _, _, _, cs, _. split; [|apply surjective_pairing].
  intros m x Hx key v Hv. apply lookup_replicate in Hx as [-> _]. by rewrite lookup_empty in Hv.
Qed.
Theorem counted_wrong : exists (V : Type) (U : uenv V) fuel s k u got new s',
  treaches U fuel s /\ target s k = Some (None, u) /\ accepting U u got /\ (forall v r, (ev_close (u_env U) v r).2 = None) /\
  holding new [] /\ texec U fuel (TServe (reply_with new 200) (Some k) false) s = (s', ORet YUnit) /\
  s_met s' <> s_met s ++ tally "200" 0 /\ s_met s' = s_met s ++ MPanics :: tally "200" 0 ++ [MOnPanic false (PError EOF)].
Proof.
  exists (nat * bytes)%type, (saloon (lone (hello plain 3)) all_caps), 9%nat, (open_saloon 0%nat 1), 1%nat, 0%nat, snd, (NewString "").
  eexists. split; [exact (saloon_reaches _ 9 0%nat 1 [])|]. split; [done|]. split; [apply saloon_accepts|]. split; [done|].
  split; [right; by exists ""%string|]. split; [vm_compute; reflexivity|]. split; vm_compute; [discriminate|reflexivity].
Qed.
