(** Exactly when the instructions for interface descriptions succeed (C113). *)
From Coq Require Import String.
From Verif Require Import Ints Tactics Fees LinearCurve SwapCurve Codec Token Processor Api History Sha256 Entry Idl
  Spec LedgerSpec CallSpec WireSpec CodecFacts TokenFacts ProcFacts CreateFacts EntryFacts HistoryFacts IdlSpec IdlFacts.

Lemma store_exact w k a : a_owner (w k) = PROGRAM_ID ->
  (exists w', idl_store w k a = Ok w') <-> room w k (idl_data a).
Proof.
  intros O. unfold room. split.
  - intros (w' & H). pose proof (store_inv _ _ _ _ H) as (_ & L & rest & _ & _ & E). split; [exact L |].
    rewrite app_length, pack_length in E. lia.
  - intros (L & R). unfold idl_store. destruct (Z.ltb_spec u32_max (Z.of_nat (length (idl_data a)))); [unfold u32_max in *; lia |].
    cbn [guard rbind]. rewrite pack_length. destruct (Nat.ltb_spec (length (raw_of (a_data (w k)))) (44 + length (idl_data a))); [lia |].
    cbn [guard rbind]. rewrite O, Z.eqb_refl. cbn [negb guard rbind]. eexists. reflexivity.
Qed.
Lemma described_room w k au data : described w k au data -> room w k data.
Proof.
  intros (_ & L & _ & rest & E). split; [exact L |]. rewrite E. cbn [raw_of]. rewrite !app_length, !to_le_length. cbn [length]. lia.
Qed.
Lemma described_owner w k au data : described w k au data -> a_owner (w k) = PROGRAM_ID.
Proof. intros (_ & _ & O & _). exact O. Qed.
Lemma signed_exact signers au : (exists u, idl_signed signers au = Ok u) <-> In au signers /\ au <> 0.
Proof.
  split; [intros (u & H); exact (signed_inv _ _ _ H) |]. intros (I & N). unfold idl_signed.
  rewrite (proj2 (mem_in _ _) I), (proj2 (Z.eqb_neq _ _) N). exists tt. reflexivity.
Qed.
Lemma read_exact l : (exists a, idl_read_unchecked l = Some a) <->
  (44 <= length l)%nat /\ 44 + from_le (firstn 4 (skipn 40 l)) <= Z.of_nat (length l).
Proof.
  unfold idl_read_unchecked, slice. destruct (Nat.ltb_spec (length l) 44); [split; [intros (a & H0); discriminate H0 | lia] |]. cbv zeta.
  destruct (Z.ltb_spec (Z.of_nat (length l) - 44) (from_le (firstn 4 (skipn 40 l)))).
  - split; [intros (a & H1); discriminate H1 | lia].
  - split; [lia | intros _; eexists; reflexivity].
Qed.
Lemma read_length l a : Forall is_u8 l -> idl_read_unchecked l = Some a ->
  Z.of_nat (length (idl_data a)) < 2 ^ 32 /\ (44 + length (idl_data a) <= length l)%nat.
Proof.
  intros U H. unfold idl_read_unchecked, slice in H. destruct (Nat.ltb_spec (length l) 44); [discriminate |]. cbv zeta in H.
  destruct (Z.ltb_spec (Z.of_nat (length l) - 44) (from_le (firstn 4 (skipn 40 l)))); [discriminate |].
  assert (E : idl_data a = firstn (Z.to_nat (from_le (firstn 4 (skipn 40 l)))) (skipn 44 l)) by (inversion H; reflexivity). rewrite E. clear H E.
  assert (B : 0 <= from_le (firstn 4 (skipn 40 l)) < 2 ^ 32).
  { assert (V : Forall is_u8 (firstn 4 (skipn 40 l))).
    { apply Forall_forall. intros x Hx. rewrite Forall_forall in U. apply U. rewrite <- (firstn_skipn 40 l). apply in_or_app. right.
      rewrite <- (firstn_skipn 4 (skipn 40 l)). apply in_or_app. now left. }
    pose proof (from_le_bounds _ V) as B. rewrite firstn_length, skipn_length in B.
    replace (Nat.min 4 (length l - 40)) with 4%nat in B by lia. exact B. }
  rewrite firstn_length, skipn_length. split; lia.
Qed.

Ltac gi := match goal with |- context [mem ?x ?l] => rewrite (proj2 (mem_in x l)) by assumption end.

Lemma idl_exact ie signers writable accounts w i : world_wf w -> idl_checked ie = true -> idl_env_ok ie signers w ->
  (exists w', idl_exec ie signers writable accounts w i = Ok w') <-> idl_asks ie signers writable accounts w i.
Proof.
  intros W Hck Ho. pose proof Ho as (N1 & N2 & N3 & S1 & S2 & B). destruct i as [n | | data | | na]; unfold idl_asks.
  - split.
    + intros (w' & H). destruct accounts as [| from [| to [| base [| system [| program rest]]]]]; try discriminate. cbn [idl_exec] in H.
      gb H. apply negb_false_iff, mem_in in G. gb H. gb H. rewrite Hck in G1. cbn [andb] in G1. apply negb_false_iff, Z.eqb_eq in G1.
      gb H. apply negb_false_iff, Z.eqb_eq in G2. cbv zeta in H. gb H. apply negb_false_iff, andb_true_iff in G3. destruct G3 as [M1 M2]. apply mem_in in M1, M2.
      gb H. apply negb_false_iff, mem_in in G3. gb H. apply Z.ltb_ge in G4. gb H. apply negb_false_iff, Z.eqb_eq in G5.
      apply rbind_ok in H. destruct H as (w1 & H1 & H).
      destruct (a_data (w (idl_address ie))) as [| | l] eqn:Ed; try discriminate. destruct l; [| discriminate].
      apply (f_equal (fun r => match r with Ok x => x | Err _ => w end)) in H1. cbv beta iota in H1. subst w1.
      assert (T : to = idl_address ie).
      { cbn [In] in M1, M2. destruct M1 as [E | [E | [E | [E | []]]]]; [subst; contradiction | exact E | | subst; congruence].
        destruct M2 as [F | [F | [F | [F | []]]]]; [subst; contradiction | | congruence | subst; congruence].
        exfalso. destruct (idl_read_unchecked _); [| discriminate]. apply store_inv in H. destruct H as (Ow & _).
        rewrite upd_other in Ow by congruence. subst to. contradiction. }
      assert (T2 : base = idl_base ie).
      { cbn [In] in M2. destruct M2 as [F | [F | [F | [F | []]]]]; [subst; contradiction | congruence | exact F | subst; congruence]. }
      subst to base system program. exists from, rest. split; [reflexivity |]. split; [exact G |]. split; [exact G3 |].
      replace (8 + 32 + 4 + n) with (44 + n) in * by ring. unfold MAX_GROWTH in G4.
      split; [split; [| exact G4] | split; [exact G5 | reflexivity]].
      rewrite upd_same in H. cbn [a_data raw_of] in H.
      destruct (idl_read_unchecked (repeat 0 (Z.to_nat ((44 + n) mod 2 ^ 64)))) as [a |] eqn:Er; [| discriminate].
      assert (X : exists a, idl_read_unchecked (repeat 0 (Z.to_nat ((44 + n) mod 2 ^ 64))) = Some a) by eauto.
      apply read_exact in X. destruct X as (X & _). rewrite repeat_length in X. lia.
    + intros (from & rest & -> & Hf & Hw & Hn & Hs & He). cbn [idl_exec]. gi. gi. rewrite !Z.eqb_refl, andb_false_r. cbn [negb guard rbind].
      rewrite (proj2 (mem_in (idl_address ie) [from; idl_address ie; idl_base ie; SYSTEM_PROGRAM_ID])) by (cbn [In]; auto).
      rewrite (proj2 (mem_in (idl_base ie) [from; idl_address ie; idl_base ie; SYSTEM_PROGRAM_ID])) by (cbn [In]; auto).
      cbn [andb negb guard rbind]. cbv zeta. replace (8 + 32 + 4 + n) with (44 + n) by ring.
      replace (MAX_GROWTH <? (44 + n) mod 2 ^ 64) with false by (symmetry; apply Z.ltb_ge; unfold MAX_GROWTH; lia).
      cbn [guard rbind]. rewrite He, Hs, Z.eqb_refl. cbn [negb guard rbind]. rewrite upd_same. cbn [a_data raw_of].
      rewrite zeros_read by lia. apply store_exact; [now rewrite upd_same |]. cbn [idl_data]. unfold room. rewrite upd_same.
      cbn [a_data raw_of length]. rewrite repeat_length. lia.
  - split.
    + intros (w' & H). destruct accounts as [| b [| au [| rent rest]]]; try discriminate. cbn [idl_exec] in H. cbv zeta in H.
      gb H. gb H. apply negb_false_iff, Z.eqb_eq in G0. gb H. apply negb_false_iff, Z.eqb_eq in G1.
      destruct (idl_read_unchecked _) as [a |] eqn:Er; [| discriminate]. gb H. apply negb_false_iff, mem_in in G2. gb H. apply signed_inv in G3.
      assert (X : exists a, idl_read_unchecked (raw_of (a_data (w b))) = Some a) by eauto. apply read_exact in X.
      exists b, au, rent, rest. cbv zeta. intuition.
    + intros (b & au & rent & rest & -> & O & Hw & Hs & Hz & F & L & M). cbn [idl_exec]. cbv zeta.
      destruct (Nat.ltb_spec (length (raw_of (a_data (w b)))) 8); [lia |]. cbn [guard rbind]. rewrite F, O, !Z.eqb_refl. cbn [negb guard rbind].
      assert (X : exists a, idl_read_unchecked (raw_of (a_data (w b))) = Some a) by (apply read_exact; auto).
      destruct X as (a & X). rewrite X. gi. cbn [negb guard rbind].
      destruct (proj2 (signed_exact signers au) (conj Hs Hz)) as (u & Hu). rewrite Hu. cbn [rbind].
      apply store_exact; [exact O |]. cbn [idl_data]. exact (read_length _ _ (raw_u8 _ _ W) X).
  - split.
    + intros (w' & H). destruct accounts as [| k [| au rest]]; try discriminate. cbn [idl_exec] in H.
      apply rbind_ok in H. destruct H as (a & La & H). apply load_of in La; [| exact W]. destruct La as (au' & old & -> & D).
      cbn [idl_authority idl_data] in H. gb H. apply negb_false_iff, mem_in in G. gb H. apply negb_false_iff, Z.eqb_eq in G0. subst au'.
      gb H. apply signed_inv in G0. exists k, au, rest, old. split; [reflexivity |]. split; [exact D |]. split; [exact G |].
      split; [apply G0 |]. split; [apply G0 |].
      exact (proj1 (store_exact w k (mk_idl au (old ++ data)) (described_owner _ _ _ _ D)) (ex_intro _ _ H)).
    + intros (k & au & rest & old & -> & D & Hw & Hs & Hz & R). cbn [idl_exec]. rewrite (described_load _ _ _ _ D). cbn [rbind idl_authority idl_data].
      gi. rewrite Z.eqb_refl. cbn [negb guard rbind]. destruct (proj2 (signed_exact signers au) (conj Hs Hz)) as (u & Hu). rewrite Hu. cbn [rbind].
      apply store_exact; [exact (described_owner _ _ _ _ D) | exact R].
  - split.
    + intros (w' & H). destruct accounts as [| b [| k [| au rest]]]; try discriminate. cbn [idl_exec] in H.
      apply rbind_ok in H. destruct H as (c & Lc & H). apply load_of in Lc; [| exact W]. destruct Lc as (au1 & data & -> & D1).
      apply rbind_ok in H. destruct H as (a & La & H). apply load_of in La; [| exact W]. destruct La as (au2 & old & -> & D2).
      cbn [idl_authority idl_data] in H. gb H. apply negb_false_iff, andb_true_iff in G. destruct G as [Ga Gb]. apply mem_in in Ga, Gb.
      gb H. apply negb_false_iff, Z.eqb_eq in G. gb H. apply negb_false_iff, Z.eqb_eq in G0. subst au1 au2. gb H. apply signed_inv in G.
      apply rbind_ok in H. destruct H as (w1 & H1 & H).
      exists b, k, au, rest, data, old. split; [reflexivity |]. split; [exact D1 |]. split; [exact D2 |]. split; [exact Ga |]. split; [exact Gb |].
      split; [apply G |]. split; [apply G |].
      pose proof (store_inv _ _ _ _ H) as (O1 & _).
      pose proof (proj1 (store_exact w1 k (mk_idl au data) O1) (ex_intro _ _ H)) as R. cbn [idl_data] in R.
      apply stored_tagged in H1. destruct H1 as (_ & F & L). unfold room in *.
      destruct (Z.eq_dec k b) as [-> | N]; [rewrite L in R; exact R | rewrite (F _ N) in R; exact R].
    + intros (b & k & au & rest & data & old & -> & D1 & D2 & Ha & Hb & Hs & Hz & R). cbn [idl_exec].
      rewrite (described_load _ _ _ _ D1), (described_load _ _ _ _ D2). cbn [rbind idl_authority idl_data].
      gi. gi. rewrite Z.eqb_refl. cbn [negb andb guard rbind]. destruct (proj2 (signed_exact signers au) (conj Hs Hz)) as (u & Hu). rewrite Hu. cbn [rbind].
      destruct (proj2 (store_exact w b (mk_idl au data) (described_owner _ _ _ _ D1)) (described_room _ _ _ _ D1)) as (w1 & H1).
      rewrite H1. cbn [rbind]. apply stored_tagged in H1. destruct H1 as (T & F & L).
      assert (E : a_owner (w1 k) = PROGRAM_ID /\ length (raw_of (a_data (w1 k))) = length (raw_of (a_data (w k)))).
      { destruct (Z.eq_dec k b) as [-> | N]; [split; [apply T | exact L] | rewrite (F _ N); split; [exact (described_owner _ _ _ _ D2) | reflexivity]]. }
      destruct E as (E1 & E2). apply store_exact; [exact E1 |]. unfold room in *. rewrite E2. exact R.
  - split.
    + intros (w' & H). destruct accounts as [| k [| au rest]]; try discriminate. cbn [idl_exec] in H.
      apply rbind_ok in H. destruct H as (a & La & H). apply load_of in La; [| exact W]. destruct La as (au' & old & -> & D).
      cbn [idl_authority idl_data] in H. gb H. apply negb_false_iff, mem_in in G. gb H. apply negb_false_iff, Z.eqb_eq in G0. subst au'.
      gb H. apply signed_inv in G0. exists k, au, rest, old. intuition.
    + intros (k & au & rest & old & -> & D & Hw & Hs & Hz). cbn [idl_exec]. rewrite (described_load _ _ _ _ D). cbn [rbind idl_authority idl_data].
      gi. rewrite Z.eqb_refl. cbn [negb guard rbind]. destruct (proj2 (signed_exact signers au) (conj Hs Hz)) as (u & Hu). rewrite Hu. cbn [rbind].
      apply store_exact; [exact (described_owner _ _ _ _ D) | exact (described_room _ _ _ _ D)].
Qed.
