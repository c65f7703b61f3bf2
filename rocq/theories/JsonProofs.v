(** * Encoders: proofs of C22 and C23 *)
From stdpp Require Import gmap.
From Verif Require Import RespSpec RunFacts JsonSpec WitnessResp.
From Verif Require Proofs01.

Lemma crlf_loop_spec dst src : crlf_loop dst src = dst ++ crlf_of src.
Proof.
  unfold crlf_loop. revert dst. induction src as [|c src IH]; intros dst; cbn; [by rewrite app_nil_r|].
  rewrite IH. unfold crlf_of. cbn. destruct (Ascii.eqb_spec c "010") as [->|Hc]; rewrite <- app_assoc; [by rewrite decide_True|by rewrite decide_False].
Qed.
Lemma lf_count_length src : zlen (crlf_of src) = zlen src + Z.of_nat (count_occ ascii_dec src "010"%char).
Proof.
  induction src as [|c src IH]; [done|]. unfold crlf_of in *. cbn [map concat]. unfold zlen in *. rewrite app_length.
  destruct (decide (c = "010"%char)) as [->|Hc].
  - rewrite decide_True, count_occ_cons_eq by done. unfold byte in *. cbn [length]. lia.
  - rewrite decide_False, count_occ_cons_neq by done. unfold byte in *. cbn [length]. lia.
Qed.
Lemma crlf_cons c src : crlf_of (c :: src) = (if decide (c = "010"%char) then ["013"%char; "010"%char] else [c]) ++ crlf_of src.
Proof. done. Qed.
Lemma crlf_head src : match crlf_of src with c :: _ => Ascii.eqb c "010" | [] => false end = false.
Proof. destruct src as [|c src]; [done|]. rewrite crlf_cons. destruct (decide _); [done|]. by apply Ascii.eqb_neq. Qed.
Lemma strip_crlf src : strip_cr (crlf_of src) = src.
Proof.
  induction src as [|c src IH]; [done|]. rewrite crlf_cons. destruct (decide (c = "010"%char)) as [->|Hc].
  - cbn. unfold byte in *. by rewrite IH.
  - cbn. unfold byte in *. rewrite crlf_head, andb_false_r, IH. done.
Qed.

Section Main.
Context {V : Type} (U : uenv V) (fuel : nat).
Implicit Types (s : state V).

Lemma serves_bytes s d : zlen d <= max_slice ->
  exists s' i, on_heap U (FromBytes d) s = (s', ORet i) /\ serves U fuel s s' i d.
Proof.
  intros Hd. destruct (Proofs01.in_memory_cursors _ (wenv U) fuel (s_h s) (NewBytes d) d (or_introl eq_refl) Hd) as (h1 & i & Hx & Hi & Ht).
  unfold exec, cmd_prog, rnew in Hx. rewrite run_bind in Hx. unfold on_heap.
  destruct (run (wenv U) (s_h s) (FromBytes d)) as [h [j|e|]]; cbn in Hx; [|done|done]. injection Hx as <- <-.
  eexists _, j. split; [done|]. split; [done|]. exact Ht.
Qed.
Theorem pretty_json : forall s src, zlen (crlf_of src) <= max_slice ->
  exists s' i, texec U fuel (TDo (RJSON (inl src) true)) s = (s', ORet (YBody (RBody i None))) /\ serves U fuel s s' i (crlf_of src).
Proof.
  intros s src Hd. destruct (serves_bytes s (crlf_of src) Hd) as (s' & i & Hx & Hs). exists s', i. split; [|done].
  cbn. unfold ybind. rewrite crlf_loop_spec. cbn. by rewrite Hx.
Qed.
Theorem compact_json : forall s src,
  exists s' i, texec U fuel (TDo (RJSON (inl src) false)) s = (s', ORet (YBody (RBody i None))) /\ serves U fuel s s' i [].
Proof.
  intros s src. destruct (serves_bytes s []) as (s' & i & Hx & Hs); [unfold zlen, max_slice; cbn; lia|]. exists s', i. split; [|done].
  cbn. unfold ybind. destruct src; cbn; rewrite Hx; done.
Qed.
Theorem proto : forall s raw, zlen raw <= max_slice ->
  exists s' i, texec U fuel (TDo (RProto (Some (inl raw)))) s = (s', ORet (YBody (RBody i None))) /\ serves U fuel s s' i raw.
Proof.
  intros s src Hd. destruct (serves_bytes s src Hd) as (s' & i & Hx & Hs). exists s', i. split; [|done]. cbn. unfold ybind. by rewrite Hx.
Qed.
Theorem encoding_fails : forall s err pretty,
  texec U fuel (TDo (RJSON (inr err) pretty)) s = (s, OPanic (PError err)) /\
  texec U fuel (TDo (RProto (Some (inr err)))) s = (s, OPanic (PError err)) /\
  texec U fuel (TDo (RProto None)) s = (s, OPanic PAssert).
Proof. intros [] err pretty. done. Qed.
End Main.

Theorem json_lost : exists (V : Type) (U : uenv V) fuel s src,
  src = bs "{""a"":1}" /\ treaches U fuel s /\
  (thistory U fuel s [TDo (RJSON (inl src) false); TDo (RB (Call 1 BytesRemaining)); TDo (RB (Call 1 (Read (buf 9))))]).2 =
  [ORet (YBody (RBody 1 None)); ORet (YBody (RInt 0)); ORet (YBody (RRead 0 (buf 9) (Some EOF)))].
Proof.
  exists (list nat), (web_ok []), 9%nat, (start [] 0), (bs "{""a"":1}"). split; [done|]. split; [apply (after_reaches _ _ [] 0 [])|].
  vm_compute. done.
Qed.
