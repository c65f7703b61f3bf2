(** * The heap invariant (proof infrastructure)

    The invariant tying Body objects to the objects they share.  It is proved
    to hold in every reachable heap, for every environment (Preserve.v). *)
From stdpp Require Import gmap.
From Coq Require Import ZifyBool.
From Verif Require Export Mem.

(** The shared object a Body points to. *)
Definition body_common (b : bobj) : option nat :=
  match b with
  | BSeeker b => sb_common b
  | BReaderAt b => rb_common b
  | BBuffered b => bb_common b
  | _ => None
  end.

(** The handles of the Bodies pointing to [c]. *)
Definition refers (bs : list bobj) (c i : nat) : Prop :=
  exists b, bs !! i = Some b /\ body_common b = Some c.
Global Instance refers_dec bs c i : Decision (refers bs c i).
Proof.
  destruct (bs !! i) as [b|] eqn:Hb.
  - destruct (decide (body_common b = Some c)) as [H|H].
    + left. exists b. done.
    + right. intros (b' & Hb' & Hc). congruence.
  - right. intros (b' & Hb' & Hc). congruence.
Defined.
Definition refs (bs : list bobj) (c : nat) : list nat := filter (refers bs c) (seq 0 (length bs)).

Lemma elem_refs bs c i : i ∈ refs bs c <-> refers bs c i.
Proof.
  unfold refs. rewrite elem_of_list_filter, elem_of_seq. split; [tauto|].
  intros H. split; [done|]. destruct H as (b & Hb & _). apply lookup_lt_Some in Hb. lia.
Qed.
Lemma NoDup_refs bs c : NoDup (refs bs c).
Proof. apply NoDup_filter, NoDup_ListNoDup, seq_NoDup. Qed.

Lemma filter_ext_in {A} (P Q : A -> Prop) {HP : forall x, Decision (P x)} {HQ : forall x, Decision (Q x)} (l : list A) :
  (forall x, x ∈ l -> P x <-> Q x) -> filter P l = filter Q l.
Proof.
  induction l as [|x l IH]; intros Hext; [done|].
  rewrite !filter_cons. rewrite IH by (intros; apply Hext; by right).
  destruct (decide (P x)), (decide (Q x)); try done; exfalso; pose proof (Hext x (elem_of_list_here _ _)); tauto.
Qed.

(** A store that keeps the pointer keeps the references. *)
Lemma refs_store_same bs c i b b' :
  bs !! i = Some b -> body_common b' = body_common b -> refs (<[i := b']> bs) c = refs bs c.
Proof.
  intros Hi Hc. unfold refs. rewrite insert_length. apply filter_ext_in. intros j _.
  unfold refers. destruct (decide (i = j)) as [<-|Hne].
  - rewrite list_lookup_insert by (by eapply lookup_lt_Some).
    split; intros (x & Hx & Hxc); [exists b|exists b']; (split; [done|congruence]).
  - rewrite list_lookup_insert_ne by done. done.
Qed.
(** Dropping the pointer removes the handle. *)
Lemma refs_store_none bs c i b b' :
  bs !! i = Some b -> body_common b = Some c -> body_common b' = None ->
  refs (<[i := b']> bs) c = filter (λ j, j ≠ i) (refs bs c).
Proof.
  intros Hi Hc Hc'. unfold refs. rewrite insert_length, list_filter_filter. apply filter_ext_in. intros j _.
  unfold refers. destruct (decide (i = j)) as [<-|Hne].
  - rewrite list_lookup_insert by (by eapply lookup_lt_Some).
    split; [intros (x & Hx & Hxc); congruence|intros [? _]; done].
  - rewrite list_lookup_insert_ne by done. split; [intros; split; [congruence|done]|tauto].
Qed.
Lemma refs_store_other bs c i b b' :
  bs !! i = Some b -> body_common b <> Some c -> body_common b' <> Some c ->
  refs (<[i := b']> bs) c = refs bs c.
Proof.
  intros Hi Hc Hc'. unfold refs. rewrite insert_length. apply filter_ext_in. intros j _.
  unfold refers. destruct (decide (i = j)) as [<-|Hne].
  - rewrite list_lookup_insert by (by eapply lookup_lt_Some).
    split; intros (x & Hx & Hxc); congruence.
  - rewrite list_lookup_insert_ne by done. done.
Qed.
Lemma refs_new bs c b :
  refs (bs ++ [b]) c = refs bs c ++ (if decide (body_common b = Some c) then [length bs] else []).
Proof.
  unfold refs. rewrite app_length. cbn [length]. rewrite Nat.add_1_r, seq_S, filter_app. cbn [Nat.add].
  assert (Hnew : refers (bs ++ [b]) c (length bs) <-> body_common b = Some c).
  { unfold refers. split.
    - intros (x & Hx & Hxc). rewrite lookup_app_r, Nat.sub_diag in Hx by lia. cbn in Hx. congruence.
    - intros H. exists b. split; [|done]. rewrite lookup_app_r, Nat.sub_diag by lia. done. }
  f_equal.
  - apply filter_ext_in. intros j Hj. apply elem_of_seq in Hj. unfold refers.
    split; intros (x & Hx & Hxc); exists x; (split; [|done]).
    + rewrite lookup_app_l in Hx by lia. done.
    + rewrite lookup_app_l by lia. done.
  - rewrite filter_cons, filter_nil.
    destruct (decide (body_common b = Some c)); destruct (decide (refers _ _ _)); tauto.
Qed.

Lemma filter_ne_length (i : nat) (l : list nat) :
  NoDup l -> i ∈ l -> S (length (filter (λ j, j ≠ i) l)) = length l.
Proof.
  induction l as [|x l IH]; intros Hnd Hin; [by apply elem_of_nil in Hin|].
  apply NoDup_cons in Hnd as [Hx Hnd]. rewrite filter_cons.
  destruct (decide (x ≠ i)) as [Hne|He].
  - cbn. f_equal. apply IH; [done|]. apply elem_of_cons in Hin as [->|]; [done|done].
  - assert (x = i) as -> by (destruct (decide (x = i)); tauto). cbn. f_equal.
    assert (filter (λ j, j ≠ i) l = l) as ->; [|done].
    clear -Hx. induction l as [|y l IH]; [done|]. rewrite filter_cons.
    apply not_elem_of_cons in Hx as [Hy Hx].
    rewrite decide_True by congruence. f_equal. auto.
Qed.

Lemma zlen_refs_del bs c i b b' :
  bs !! i = Some b -> body_common b = Some c -> body_common b' = None ->
  zlen (refs (<[i := b']> bs) c) = zlen (refs bs c) - 1.
Proof.
  intros Hi Hc Hc'. rewrite (refs_store_none _ _ _ _ _ Hi Hc Hc').
  pose proof (filter_ne_length i (refs bs c) (NoDup_refs bs c)) as H.
  rewrite elem_refs in H. unfold zlen. rewrite <- H by (by exists b). lia.
Qed.
Lemma refs_pos bs c i b : bs !! i = Some b -> body_common b = Some c -> 0 < zlen (refs bs c).
Proof.
  intros Hi Hc. assert (i ∈ refs bs c) as Hin by (apply elem_refs; by exists b).
  unfold zlen. destruct (refs bs c); [by apply elem_of_nil in Hin|]. cbn. lia.
Qed.
Lemma zlen_refs_le bs c : zlen (refs bs c) <= zlen bs.
Proof.
  unfold zlen, refs. pose proof (filter_length (refers bs c) (seq 0 (length bs))) as H.
  rewrite seq_length in H. lia.
Qed.

(** ** Individual objects *)

(** The offset of the buffered Body [i]. *)
Definition boff (bs : list bobj) (i : nat) : Z :=
  match bs !! i with Some (BBuffered b) => bb_offset b | _ => 0 end.
(** How many of the handles [m] are at offset [o]. *)
Definition count_at (bs : list bobj) (o : Z) (m : list nat) : Z := zlen (filter (λ i, boff bs i = o) m).

Definition buf_end (x : bufferedCommon) : Z := bc_start x + zlen (bc_bytes x).

Record live_buf (bs : list bobj) (c : nat) (x : bufferedCommon) (r : rid) (m : list nat) : Prop := {
  lb_r : bc_r x = Some r;
  lb_m : bc_bodies x = Some m;
  lb_refs : m ≡ₚ refs bs c;
  lb_start : 0 <= bc_start x;
  lb_off : forall i, i ∈ m -> bc_start x <= boff bs i <= buf_end x;
  lb_cnt : bc_refcnt x = count_at bs (bc_start x) m;
  lb_cnt1 : 1 <= bc_refcnt x;
  lb_len : bc_length x = -1 \/ buf_end x <= bc_length x <= max_i64;
  lb_err : bc_err x <> None -> bc_length x = buf_end x
}.

Definition wf_common (bs : list bobj) (c : nat) (x : cobj) : Prop :=
  match x with
  | CSeeker x =>
      sc_refcnt x = zlen (refs bs c) /\ 0 <= sc_length x <= max_i64 /\
      (refs bs c = [] -> sc_s x = None) /\ (refs bs c <> [] -> exists r, sc_s x = Some r)
  | CReaderAt x =>
      rc_refcnt x = zlen (refs bs c) /\ 0 <= rc_length x <= max_i64 /\
      (refs bs c = [] -> rc_r x = None) /\ (refs bs c <> [] -> exists r, rc_r x = Some r) /\
      rc_at x = rc_r x
  | CBuffered x =>
      (refs bs c = [] -> bc_r x = None) /\
      (refs bs c <> [] -> exists r m, live_buf bs c x r m)
  end.

Definition wf_body (cs : list cobj) (b : bobj) : Prop :=
  match b with
  | BClosed | BEmpty _ => True
  | BBytes b => 0 <= by_offset b <= zlen (by_data b) /\ zlen (by_data b) <= max_i64
  | BSeeker b =>
      if sb_closed b then sb_common b = None else
      0 <= sb_offset b <= max_i64 /\ exists c x, sb_common b = Some c /\ cs !! c = Some (CSeeker x)
  | BReaderAt b =>
      if rb_closed b then rb_common b = None else
      0 <= rb_offset b <= max_i64 /\ exists c x, rb_common b = Some c /\ cs !! c = Some (CReaderAt x)
  | BBuffered b =>
      if bb_closed b then bb_common b = None else
      0 <= bb_offset b /\
      exists c x, bb_common b = Some c /\ cs !! c = Some (CBuffered x) /\
        (bb_eof b = true -> bb_offset b = buf_end x /\ bc_err x <> None)
  end.

Arguments total_read : simpl never.

Record wf {W} (h : heap W) : Prop := {
  wf_0 : h_b h !! 0%nat = Some BClosed;
  wf_b : forall i b, h_b h !! i = Some b -> wf_body (h_c h) b;
  wf_c : forall c x, h_c h !! c = Some x -> wf_common (h_b h) c x;
  wf_t : forall c x, h_c h !! c = Some (CBuffered x) -> buf_end x <= total_read (h_log h)
}.

Lemma ev_bytes_nonneg ev : 0 <= ev_bytes ev.
Proof. destruct ev; cbn; try lia. destruct (_ && _) eqn:?; lia. Qed.
Lemma total_read_app l k : total_read (l ++ k) = total_read l + total_read k.
Proof.
  unfold total_read. rewrite map_app. induction (map ev_bytes l) as [|x xs IH]; cbn; [done|]. rewrite IH. lia.
Qed.
Lemma total_read_nonneg l : 0 <= total_read l.
Proof.
  induction l as [|x l IH]; unfold total_read in *; cbn [map foldr]; [lia|]. pose proof (ev_bytes_nonneg x). lia.
Qed.

Lemma count_at_ext bs bs' o m :
  (forall i, i ∈ m -> boff bs' i = boff bs i) -> count_at bs' o m = count_at bs o m.
Proof.
  intros H. unfold count_at. f_equal. apply filter_ext_in. intros i Hi. rewrite H; done.
Qed.
Lemma count_at_perm bs o m m' : m ≡ₚ m' -> count_at bs o m = count_at bs o m'.
Proof. intros H. unfold count_at, zlen. rewrite H. done. Qed.
Lemma count_at_le bs o m : 0 <= count_at bs o m <= zlen m.
Proof. unfold count_at, zlen. pose proof (filter_length (λ i, boff bs i = o) m). lia. Qed.
Lemma count_at_pos bs o m : 1 <= count_at bs o m <-> exists i, i ∈ m /\ boff bs i = o.
Proof.
  unfold count_at. split.
  - intros H. destruct (filter _ m) as [|i l] eqn:Hf; [unfold zlen in H; cbn in H; lia|].
    exists i. assert (i ∈ filter (λ i, boff bs i = o) m) as Hi by (rewrite Hf; left).
    apply elem_of_list_filter in Hi. tauto.
  - intros (i & Hi & Ho). assert (i ∈ filter (λ i, boff bs i = o) m) as Hin by (apply elem_of_list_filter; done).
    unfold zlen. destruct (filter _ m); [by apply elem_of_nil in Hin|]. cbn. lia.
Qed.
