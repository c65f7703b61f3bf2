(** * Readers with faults, and Readers that end, used by the examples only *)
From stdpp Require Import gmap.
From Coq Require Import ZifyBool.
From Verif Require Export ShortSpec WitnessSource.

Lemma archive_past d early chunk off p k n q err :
  (length d <= off)%nat -> archive_read d early chunk off p = (k, (n, q, err)) -> past_end p n err.
Proof.
  intros Ho. unfold archive_read. replace (length d - off)%nat with 0%nat by lia. rewrite Nat.min_0_r. intros [= <- <- <- <-]. split; [done|].
  cbn [Nat.eqb Nat.ltb Nat.leb]. rewrite andb_true_r, andb_false_r. cbn [andb]. rewrite orb_false_r.
  destruct p; [by right|by left].
Qed.
Lemma archive_ends_at d c early chunk : ends_at (archive d c early chunk) 0 alive d early.
Proof.
  split; [apply archive_serves_at|]. intros w p off w' n q err Hl Ho. cbn -[archive_read]. rewrite Hl.
  destruct (archive_read d early None (Z.to_nat off) p) as [k [[n1 q1] e1]] eqn:Hr. cbn. intros [= <- <- <- <-].
  eapply archive_past; [|exact Hr]. unfold zlen in Ho; lia.
Qed.
Lemma archive_ends_seek d c early : zlen d <= max_i64 -> ends_seek (archive d c early None) 0 alive d early.
Proof.
  intros Hm. split; [by apply archive_serves_seek|]. intros w off Hl Ho. assert (0 <= zlen d) by (unfold zlen; lia).
  exists (false, Z.to_nat off), off. split.
  - cbn. rewrite Hl. replace (SeekStart =? 1) with false by done. replace (SeekStart =? 2) with false by done.
    rewrite Z.add_0_r. replace (wrap64 off) with off by (unfold wrap64, max_i64 in *; rewrite Z.mod_small; lia).
    replace (off <? 0) with false by lia. done.
  - intros p w' n q err. cbn -[archive_read]. destruct (archive_read d early None (Z.to_nat off) p) as [k [[n1 q1] e1]] eqn:Hr. cbn. intros [= <- <- <- <-].
    eapply archive_past; [|exact Hr]. unfold zlen in Ho; lia.
Qed.

Lemma hiccup_truthful d : truthful_seek (hiccup d) 0 (fun _ => True) d.
Proof.
  split; [by constructor|]. intros w off w1 n1 _ Ho. cbn -[archive_read]. rewrite Z.add_0_r.
  replace (wrap64 off) with off by (unfold wrap64, max_i64 in *; rewrite Z.mod_small; lia).
  replace (off <? 0) with false by lia. intros [= <- <-]. intros p w' n q err. cbn -[archive_read].
  destruct (_ && _).
  - intros [= <- <- <- <-]. exists 0%nat. split; [done|]. split; [lia|done].
  - unfold archive_read. intros [= <- <- <- <-]. eexists. split; [reflexivity|]. split; [lia|].
    rewrite take_app_le, take_take, Nat.min_id by (rewrite take_length, drop_length; lia). done.
Qed.

(** A Reader whose every third ReadAt fails after two bytes.  The state counts them. *)
Definition faulty (d : bytes) : env nat :=
  {| ev_caps := fun _ => random_access;
     ev_read := fun w _ p => (w, (0, p, Some EOF));
     ev_readat := fun w _ p off =>
       if (w mod 3 =? 1)%nat
       then let k := Nat.min (Nat.min 2 (length p)) (length d - Z.to_nat off) in
            (S w, (Z.of_nat k, take k (drop (Z.to_nat off) d) ++ drop k p, Some (External 9)))
       else (S w, snd (archive_read d false None (Z.to_nat off) p));
     ev_seek := fun w _ _ _ => (w, (0, Some (External 1)));
     ev_close := fun w _ => (w, None);
     ev_stat := fun w _ => (w, (0, Some (External 1)));
     ev_write := fun w _ p => (w, inl (zlen p, None)) |}.
Lemma faulty_go d : go_env (faulty d).
Proof. split; intros; cbn; unfold in_i64, min_i64, max_i64; lia. Qed.
Lemma faulty_truthful d : truthful_at (faulty d) 0 (fun _ => True) d.
Proof.
  split; [by constructor|]. intros w p off w' n q err _ Ho. cbn [faulty ev_readat].
  generalize 2%nat. intros two. destruct (_ =? 1)%nat; unfold archive_read; cbn [snd]; intros [= <- <- <- <-].
  all: eexists; split; [reflexivity|]; split; [lia|].
  all: rewrite take_app_le, take_take, Nat.min_id by (rewrite take_length, drop_length; lia); done.
Qed.

(** For [wrapped_once], if the program starts with the constructor. *)
Ltac wrap_with n :=
  exists [], []; eexists _, (NewReaderLen 0 n);
  split; [repeat constructor; vm_compute; done|]; split; [repeat constructor; intros [|[? ?]]; congruence|]; split; [right; by eexists|];
  split; [vm_compute; reflexivity|]; split; [vm_compute; reflexivity|]; split; [apply surjective_pairing|]; split; vm_compute; done.
