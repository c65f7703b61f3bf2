(** * Witnesses for C58 *)
From stdpp Require Import gmap.
From Verif Require Import LengthSpec WitnessServe.

Lemma saloon_reaches {W} (E : env W) cp fuel (w : W) n cs : treaches (saloon E cp) fuel (after (saloon E cp) fuel (open_saloon w n) cs).
Proof.
  unfold after, open_saloon. eexists _, _, _, _, cs, _. split; [|apply surjective_pairing].
  intros m x Hx key v Hv. apply lookup_replicate in Hx as [-> _]. by rewrite lookup_empty in Hv.
Qed.
Lemma saloon_reaches_next {W} (E : env W) cp fuel (w : W) n c cs : (texec (saloon E cp) fuel c (open_saloon w n)).2 <> OSpin ->
  treaches (saloon E cp) fuel (after (saloon E cp) fuel (after (saloon E cp) fuel (open_saloon w n) [c]) cs).
Proof.
  intros H. assert (Heq : after (saloon E cp) fuel (after (saloon E cp) fuel (open_saloon w n) [c]) cs = after (saloon E cp) fuel (open_saloon w n) (c :: cs)).
  { unfold after. cbn [thistory]. destruct (texec (saloon E cp) fuel c (open_saloon w n)) as [s []]; cbn in *; try done; by destruct (thistory _ _ s cs). }
  rewrite Heq. apply saloon_reaches.
Qed.
(** [builds] and [labelled], computed. *)
Definition check_builder {V} (s : state V) (b j : nat) : bool :=
  match s_bds s !! b with
  | Some x => match hview s (bd_hdrs x) with Some X => bool_decide (bd_body x = Some j /\ X !! "Content-Length" = None) | None => false end
  | None => false
  end.
Lemma check_builds {V} (U : uenv V) fuel s b j p : treaches U fuel s -> check_builder s b j = true ->
  (texec U fuel (TDo (RBuild b)) s).2 = ORet (YHandle (Some p)) -> builds U fuel s b j (texec U fuel (TDo (RBuild b)) s).1 p.
Proof.
  intros Hs Hc Ho. split; [done|]. split; [|rewrite <- Ho; apply surjective_pairing].
  unfold check_builder in Hc. destruct (s_bds s !! b) as [x|] eqn:Hb; [|done]. destruct (hview s (bd_hdrs x)) as [X|] eqn:HX; [|done].
  apply bool_decide_eq_true in Hc as [H1 H2]. by exists x, X.
Qed.
Definition check_label {V} (s : state V) (p j : nat) (v : option (list string)) : bool :=
  match s_rps s !! p with
  | Some y => match rp_hdrs y with
              | Some m => match view s m with Some X => bool_decide (rp_body y = Some j /\ X !! "Content-Length" = v) | None => false end
              | None => false
              end
  | None => false
  end.
Lemma check_labelled {V} (s : state V) p j v : check_label s p j v = true -> labelled s p j v.
Proof.
  unfold check_label. destruct (s_rps s !! p) as [y|] eqn:Hp; [|done]. destruct (rp_hdrs y) as [m|] eqn:Hm; [|done].
  destruct (view s m) as [X|] eqn:HX; [|done]. intros [H1 H2]%bool_decide_eq_true. by exists y, m, X.
Qed.
(** A Builder with the body [i]. *)
Definition builder_of (i : nat) : list tcmd := map TDo [RNewBuilder; RBuilder 0 (WithHeader "X-A" "1" true); RBuilder 0 (WithBody (Some i))].

Lemma short_source : exists (U : uenv (nat * bytes)) s s',
  runs_to U 99 s /\ builds U 99 s 0 1 s' 0 /\ labelled s' 0 1 (Some ["20"]) /\ accepting U 0 snd /\ target s' 1 = Some (None, 0%nat) /\
  (texec U 99 (TDo (RServe 0 1)) s').2 = ORet (YErr None) /\ (v_v (world (texec U 99 (TDo (RServe 0 1)) s').1)).2 = bs "hello world".
Proof.
  pose (U := saloon (lone (hello plain 3)) no_caps). pose (cs := TDo (RB (NewReaderLen 0 20)) :: builder_of 1).
  exists U, (after U 99 (open_saloon 0%nat 1) cs), (texec U 99 (TDo (RBuild 0)) (after U 99 (open_saloon 0%nat 1) cs)).1.
  split.
  { split; [apply saloon_go, lone_go|]. eexists _, _, _, _, cs, _. split; [|split; [apply surjective_pairing|split; vm_compute; done]]. repeat constructor; try done. }
  split; [apply check_builds; [apply saloon_reaches|by vm_compute..]|].
  split; [apply check_labelled; by vm_compute|]. split; [apply saloon_accepts|]. split; [by vm_compute|]. split; by vm_compute.
Qed.
