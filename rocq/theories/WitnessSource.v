(** * Concrete seekable Readers, used by the examples only

    Reader 0 serves a fixed byte string until it is closed.  The state says
    whether it is closed and where its cursor is. *)
From stdpp Require Import gmap.
From Coq Require Import ZifyBool.
From Verif Require Export SourceSpec Witness.

Definition archive_read (d : bytes) (early : bool) (chunk : option nat) (off : nat) (p : bytes) : nat * (Z * bytes * option error) :=
  let most := match chunk with Some c => Nat.min (length p) c | None => length p end in
  let k := Nat.min most (length d - off) in
  (k, (Z.of_nat k, take k (drop off d) ++ drop k p,
    if (length d - off <? length p)%nat && ((k =? length d - off)%nat)
       || early && (0 <? k)%nat && (off + k =? length d)%nat then Some EOF else None)).

(** [chunk]: the most bytes one Read delivers, if there is a limit. *)
Definition archive (d : bytes) (c : caps) (early : bool) (chunk : option nat) : env (bool * nat) :=
  {| ev_caps := fun _ => c;
     ev_read := fun (w : bool * nat) r p =>
       if decide (r = 0%nat) then
         if w.1 then (w, (0, p, Some ErrClosed))
         else let '(k, x) := archive_read d early chunk w.2 p in ((false, w.2 + k)%nat, x)
       else (w, (0, p, Some EOF));
     ev_readat := fun (w : bool * nat) r p off =>
       if decide (r = 0%nat) then
         if w.1 then (w, (0, p, Some ErrClosed)) else (w, snd (archive_read d early None (Z.to_nat off) p))
       else (w, (0, p, Some EOF));
     ev_seek := fun (w : bool * nat) r off wh =>
       if decide (r = 0%nat) then
         let n := wrap64 (off + if wh =? 1 then Z.of_nat w.2 else if wh =? 2 then zlen d else 0) in
         if w.1 then (w, (0, Some ErrClosed))
         else if n <? 0 then (w, (n, Some (External 1))) else ((false, Z.to_nat n), (n, None))
       else (w, (0, Some (External 1)));
     ev_close := fun (w : bool * nat) r => if decide (r = 0%nat) then ((true, w.2), None) else (w, None);
     ev_stat := fun w _ => (w, (0, Some (External 1)));
     ev_write := fun w _ p => (w, inl (zlen p, None)) |}.

Definition alive (w : bool * nat) : Prop := w.1 = false.

Lemma archive_go d c early chunk : go_env (archive d c early chunk).
Proof.
  split; intros; cbn; [unfold in_i64, min_i64, max_i64; lia|].
  destruct (decide _); [|unfold in_i64, min_i64, max_i64; cbn; lia].
  destruct w.1; [unfold in_i64, min_i64, max_i64; cbn; lia|]. destruct (_ <? 0); apply wrap64_in.
Qed.
Lemma archive_until d c early chunk : until_closed (archive d c early chunk) 0 alive.
Proof.
  constructor; unfold alive; cbn; intros; repeat (first [done | case_match]); cbn; congruence.
Qed.
Lemma archive_good d early off p k n q err :
  (off <= length d)%nat -> archive_read d early None off p = (k, (n, q, err)) -> good_read d early off p n q err.
Proof.
  intros Ho [= <- <- <- <-].
  set (k := Nat.min (length p) (length d - off)). exists k. split; [done|].
  assert (Hl : length (take k (drop off d)) = k) by (rewrite take_length, drop_length; lia).
  split; [|by rewrite take_app_le, take_take, Nat.min_id by lia].
  unfold read_at. split; [done|].
  destruct (length d - off <? length p)%nat eqn:H1, (k =? length d - off)%nat eqn:H2, early, (0 <? k)%nat eqn:H3, (off + k =? length d)%nat eqn:H4;
    cbn [andb orb]; unfold k in *; repeat split; intros; try done; try lia; auto.
  right. repeat split; try done; lia.
Qed.
Lemma archive_fair d early chunk off p k n q err :
  (match chunk with Some c => 0 < c | None => True end)%nat ->
  (off <= length d)%nat -> archive_read d early chunk off p = (k, (n, q, err)) -> fair_read d off p n q err.
Proof.
  intros Hc Ho [= <- <- <- <-]. set (k := Nat.min _ (length d - off)). exists k. split; [done|].
  assert (Hk : (k <= length p)%nat) by (unfold k; destruct chunk; lia).
  assert (Hl : length (take k (drop off d)) = k) by (rewrite take_length, drop_length; lia).
  split; [lia|]. split; [by rewrite take_app_le, take_take, Nat.min_id by lia|]. split.
  - destruct (length d - off <? length p)%nat eqn:H1, (k =? length d - off)%nat eqn:H2, early, (0 <? k)%nat eqn:H3, (off + k =? length d)%nat eqn:H4;
    cbn [andb orb]; auto; right; split; try done; lia.
  - intros Hk0 Hp. destruct p as [|x p]; [done|]. cbn [length] in *.
    replace (length d - off)%nat with 0%nat by (unfold k in Hk0; destruct chunk; lia).
    replace (k =? 0)%nat with true by lia. done.
Qed.
Lemma archive_serves_at d c early chunk : serves_at (archive d c early chunk) 0 alive d early.
Proof.
  split; [apply archive_until|]. intros w p off w' n q err Hl Ho. cbn -[archive_read]. rewrite Hl.
  destruct (archive_read d early None (Z.to_nat off) p) as [k [[n1 q1] e1]] eqn:Hr. cbn. intros [= <- <- <- <-].
  eapply archive_good; [|exact Hr]. unfold zlen in Ho; lia.
Qed.
Lemma archive_seek d c early chunk w off : zlen d <= max_i64 -> alive w -> 0 <= off <= zlen d ->
  ev_seek (archive d c early chunk) w 0 off SeekStart = ((false, Z.to_nat off), (off, None)).
Proof.
  intros Hm Hl Ho. cbn. rewrite Hl. replace (SeekStart =? 1) with false by done. replace (SeekStart =? 2) with false by done.
  rewrite Z.add_0_r. replace (wrap64 off) with off.
  2: { unfold wrap64, max_i64 in *. rewrite Z.mod_small; lia. }
  replace (off <? 0) with false by lia. done.
Qed.
Lemma archive_serves_seek d c early : zlen d <= max_i64 -> serves_seek (archive d c early None) 0 alive d early.
Proof.
  intros Hm. split; [apply archive_until|]. intros w off Hl Ho. eexists _, _. split; [apply archive_seek; (done || lia)|].
  intros p w' n q err. cbn -[archive_read]. destruct (archive_read d early None (Z.to_nat off) p) as [k [[n1 q1] e1]] eqn:Hr. cbn. intros [= <- <- <- <-].
  eapply archive_good; [|exact Hr]. unfold zlen in Ho; lia.
Qed.
Lemma archive_fair_seek d c early chunk : zlen d <= max_i64 -> fair_seek (archive d c early (Some (S chunk))) 0 alive d.
Proof.
  intros Hm. split; [apply archive_until|]. intros w off Hl Ho. eexists _, _. split; [by apply archive_seek|].
  intros p w' n q err. cbn -[archive_read]. destruct (archive_read d early (Some (S chunk)) (Z.to_nat off) p) as [k [[n1 q1] e1]] eqn:Hr. cbn. intros [= <- <- <- <-].
  eapply (archive_fair _ _ (Some (S chunk))); [lia| |exact Hr]. unfold zlen in Ho; lia.
Qed.

(** A seekable Reader whose first Read at the beginning fails and which is all
    right otherwise; the state counts the Reads. *)
Definition hiccup (d : bytes) : env (nat * nat) :=
  {| ev_caps := fun _ => seekable;
     ev_read := fun (w : nat * nat) _ p =>
       if (w.1 =? 0)%nat && (w.2 =? 0)%nat then ((1%nat, w.2), (0, p, Some (External 9)))
       else let '(k, x) := archive_read d false None w.2 p in ((S w.1, w.2 + k)%nat, x);
     ev_readat := fun w _ p _ => (w, (0, p, Some EOF));
     ev_seek := fun (w : nat * nat) _ off wh =>
       let n := wrap64 (off + if wh =? 1 then Z.of_nat w.2 else if wh =? 2 then zlen d else 0) in
       if n <? 0 then (w, (n, Some (External 1))) else ((w.1, Z.to_nat n), (n, None));
     ev_close := fun w _ => (w, None);
     ev_stat := fun w _ => (w, (0, Some (External 1)));
     ev_write := fun w _ p => (w, inl (zlen p, None)) |}.
Lemma hiccup_rules d : rule_abiding (hiccup d).
Proof.
  split; [|split; [|split; [|split; [|split]]]].
  - split; intros; cbn; [unfold in_i64, min_i64, max_i64; lia|]. destruct (_ <? 0); apply wrap64_in.
  - intros w r p. cbn -[archive_read]. destruct (_ && _); [cbn; unfold zlen; lia|]. cbn. unfold zlen. lia.
  - intros. cbn. unfold zlen. lia.
  - intros w r n H. cbn in H. done.
  - intros w r off wh n H. cbn in H. destruct (_ <? 0) eqn:Hn; cbn in H; injection H as <-; [done|lia].
  - intros w x p. cbn. eexists _, _. split; [done|]. unfold zlen. lia.
Qed.
