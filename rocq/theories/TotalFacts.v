(** Tokens are neither created nor destroyed. *)
From Verif Require Import Ints Tactics Fees SwapCurve Codec Token Processor Api History LedgerSpec CallSpec WireSpec TotalSpec
  TokenFacts CallFacts EffectFacts CreateFacts LiveFacts HistoryFacts LiquidityFacts EntryFacts.

Lemma total_change w w' m f ks : (forall k, In k ks -> held w' m k = held w m k + f k) ->
  total w' m ks = total w m ks + fold_right (fun k acc => f k + acc) 0 ks.
Proof.
  induction ks as [| k ks IH]; intros H; cbn [total fold_right]; [reflexivity |].
  rewrite H by now left. rewrite IH by (intros j Hj; apply H; now right). lia.
Qed.

Lemma sum_zero (f : Z -> Z) ks : (forall k, In k ks -> f k = 0) -> fold_right (fun k acc => f k + acc) 0 ks = 0.
Proof.
  induction ks as [| k ks IH]; intros H; cbn [fold_right]; [reflexivity |].
  rewrite H by now left. rewrite IH; [reflexivity |]. intros j Hj. apply H. now right.
Qed.

Lemma sum_at (k : Z) x ks : NoDup ks -> In k ks -> fold_right (fun j acc => only_at k j x + acc) 0 ks = x.
Proof.
  induction ks as [| j ks IH]; intros N Hin; [destruct Hin |]. cbn [fold_right]. inversion N as [| ? ? Nj Nks]; subst.
  unfold only_at at 1. destruct (Z.eqb_spec j k) as [-> | D].
  - rewrite sum_zero; [lia |]. intros i Hi. apply only_at_other. intros ->. contradiction.
  - rewrite IH; [lia | assumption |]. destruct Hin; [contradiction | assumption].
Qed.

Lemma sum_add (f g : Z -> Z) ks : fold_right (fun k acc => (f k + g k) + acc) 0 ks =
  fold_right (fun k acc => f k + acc) 0 ks + fold_right (fun k acc => g k + acc) 0 ks.
Proof. induction ks as [| k ks IH]; cbn [fold_right]; lia. Qed.

Lemma held_token w m k t : token_at w k t -> held w m k = if t_mint t =? m then t_amount t else 0.
Proof. intros [O D]. unfold held. rewrite O, D, Z.eqb_refl. reflexivity. Qed.
Lemma held_mint w m k t : mint_at w k t -> held w m k = 0.
Proof. intros [O D]. unfold held. rewrite O, D, Z.eqb_refl. reflexivity. Qed.
Lemma held_same w w' m k : w' k = w k -> held w' m k = held w m k.
Proof. intros E. unfold held. rewrite E. reflexivity. Qed.

Lemma debit_amount w signed t a x t' : debit w signed t a x t' ->
  exists d y, t' = retoken t (t_amount t - x) d y /\ x <= t_amount t.
Proof. intros (_ & L & [(_ & _ & ->) | (_ & _ & ->)]); eauto. Qed.

(** Every call keeps the sum of the balances less the supply. *)
Lemma call_total signed w c w' m ks : call_ok signed w c w' -> NoDup ks -> incl (call_writes c) ks ->
  total w' m ks - supply w' m = total w m ks - supply w m.
Proof.
  intros H N I. destruct c as [s d a x | mt d a x | s mt a x]; cbn [call_ok call_writes] in *.
  - destruct H as (ts & td & ts' & Ts & Td & _ & _ & Em & D & [[-> ->] | (Nsd & _ & ->)]); [reflexivity |].
    destruct (debit_amount _ _ _ _ _ _ D) as (dl & y & -> & _).
    set (z := if t_mint ts =? m then x else 0).
    rewrite (total_change w _ m (fun k => only_at d k z + only_at s k (- z))).
    + rewrite sum_add, !sum_at by (auto || (apply I; cbn; auto)).
      enough (E : supply (with2 w s (retoken ts (t_amount ts - x) dl y) d (retoken td (t_amount td + x) (t_delegate td) (t_delegated_amount td))) m = supply w m) by (rewrite E; lia).
      unfold supply, with2. destruct (Z.eqb_spec m d) as [-> | N1]; [| destruct (Z.eqb_spec m s) as [-> | N2]; [| reflexivity]];
        [destruct Td as [O E] | destruct Ts as [O E]]; rewrite O, E, Z.eqb_refl; reflexivity.
    + intros k _. destruct (Z.eq_dec k d) as [-> | N1]; [| destruct (Z.eq_dec k s) as [-> | N2]].
      * rewrite only_at_same, only_at_other by congruence. rewrite (held_token _ _ _ _ Td). unfold held, with2, z. rewrite Z.eqb_refl.
        cbn [retoken a_owner a_data t_mint t_amount]. rewrite Z.eqb_refl.
        destruct (Z.eqb_spec (t_mint ts) m), (Z.eqb_spec (t_mint td) m); lia || congruence.
      * rewrite only_at_same, only_at_other by congruence. rewrite (held_token _ _ _ _ Ts). unfold held, with2, z.
        destruct (Z.eqb_spec s d); [contradiction |]. rewrite Z.eqb_refl.
        cbn [retoken a_owner a_data t_mint t_amount]. rewrite Z.eqb_refl. destruct (_ =? m); lia.
      * rewrite !only_at_other by assumption. rewrite (held_same w); [lia |]. apply with2_other; assumption.
  - destruct H as (mm & td & Mm & Td & _ & _ & Em & _ & _ & _ & _ & ->).
    assert (Nmd : mt <> d) by (intros ->; exact (token_not_mint _ _ _ _ Td Mm)).
    set (z := if t_mint td =? m then x else 0).
    rewrite (total_change w _ m (fun k => only_at d k z)).
    + rewrite sum_at by (auto || (apply I; cbn; auto)).
      unfold z. destruct (Z.eqb_spec (t_mint td) m) as [E | E].
      * subst m. rewrite Em. unfold supply at 1, with2. rewrite Z.eqb_refl. cbn [remint a_owner a_data m_supply]. rewrite Z.eqb_refl.
        rewrite (mint_supply _ _ _ Mm). lia.
      * enough (F : supply (with2 w d (retoken td (t_amount td + x) (t_delegate td) (t_delegated_amount td)) mt (remint mm (m_supply mm + x))) m = supply w m) by (rewrite F; lia).
        unfold supply, with2. destruct (Z.eqb_spec m mt) as [-> | N1]; [congruence |].
        destruct (Z.eqb_spec m d) as [-> | N2]; [| reflexivity]. destruct Td as [O E']. rewrite O, E', Z.eqb_refl. reflexivity.
    + intros k _. destruct (Z.eq_dec k d) as [-> | N1].
      * rewrite only_at_same, (held_token _ _ _ _ Td). unfold held, with2, z. destruct (Z.eqb_spec d mt); [congruence |]. rewrite Z.eqb_refl.
        cbn [retoken a_owner a_data t_mint t_amount]. rewrite Z.eqb_refl. destruct (_ =? m); lia.
      * rewrite only_at_other by assumption. destruct (Z.eq_dec k mt) as [-> | N2].
        { rewrite (held_mint _ _ _ _ Mm). unfold held, with2. rewrite Z.eqb_refl. cbn [remint a_owner a_data]. rewrite Z.eqb_refl. reflexivity. }
        rewrite (held_same w); [lia |]. apply with2_other; assumption.
  - destruct H as (mm & ts & ts' & Mm & Ts & _ & _ & Em & D & _ & ->).
    destruct (debit_amount _ _ _ _ _ _ D) as (dl & y & -> & _).
    assert (Nmd : mt <> s) by (intros ->; exact (token_not_mint _ _ _ _ Ts Mm)).
    set (z := if t_mint ts =? m then - x else 0).
    rewrite (total_change w _ m (fun k => only_at s k z)).
    + rewrite sum_at by (auto || (apply I; cbn; auto)).
      unfold z. destruct (Z.eqb_spec (t_mint ts) m) as [E | E].
      * subst m. rewrite Em. unfold supply at 1, with2. rewrite Z.eqb_refl. cbn [remint a_owner a_data m_supply]. rewrite Z.eqb_refl.
        rewrite (mint_supply _ _ _ Mm). lia.
      * enough (F : supply (with2 w s (retoken ts (t_amount ts - x) dl y) mt (remint mm (m_supply mm - x))) m = supply w m) by (rewrite F; lia).
        unfold supply, with2. destruct (Z.eqb_spec m mt) as [-> | N1]; [congruence |].
        destruct (Z.eqb_spec m s) as [-> | N2]; [| reflexivity]. destruct Ts as [O E']. rewrite O, E', Z.eqb_refl. reflexivity.
    + intros k _. destruct (Z.eq_dec k s) as [-> | N1].
      * rewrite only_at_same, (held_token _ _ _ _ Ts). unfold held, with2, z. destruct (Z.eqb_spec s mt); [congruence |]. rewrite Z.eqb_refl.
        cbn [retoken a_owner a_data t_mint t_amount]. rewrite Z.eqb_refl. destruct (_ =? m); lia.
      * rewrite only_at_other by assumption. destruct (Z.eq_dec k mt) as [-> | N2].
        { rewrite (held_mint _ _ _ _ Mm). unfold held, with2. rewrite Z.eqb_refl. cbn [remint a_owner a_data]. rewrite Z.eqb_refl. reflexivity. }
        rewrite (held_same w); [lia |]. apply with2_other; assumption.
Qed.

Lemma calls_total signed m ks : forall l w w', calls_ok signed w l w' -> NoDup ks ->
  Forall (fun c => incl (call_writes c) ks) l ->
  total w' m ks - supply w' m = total w m ks - supply w m.
Proof.
  induction l as [| c l IH]; intros w w' H N F; cbn [calls_ok] in H; [now subst |].
  destruct H as (w1 & H1 & H2). inversion F as [| ? ? F1 F2]; subst.
  rewrite (IH _ _ H2 N F2). exact (call_total _ _ _ _ _ _ H1 N F1).
Qed.

Lemma calls_keep signed : forall l w w', calls_ok signed w l w' -> forall k, a_owner (w' k) = a_owner (w k).
Proof.
  intros l w w' H. apply calls_iff in H. exact (proj1 (proj2 (proj2 (proj2 (proj2 (run_effect _ _ _ _ H)))))).
Qed.

Lemma total_same w w' m ks : (forall k, In k ks -> held w' m k = held w m k) -> total w' m ks = total w m ks.
Proof.
  intros H. induction ks as [| k ks IH]; cbn [total]; [reflexivity |].
  rewrite H by now left. rewrite IH; [reflexivity |]. intros j Hj. apply H. now right.
Qed.

Lemma program_id : PROGRAM_ID <> TOKEN_PROGRAM_ID.
Proof. discriminate. Qed.

Lemma exec_total e signers w i w' m ks : env_ok e -> world_wf w -> Forall is_pubkey (instr_accounts i) ->
  exec e signers w i = Ok w' -> NoDup ks -> incl (must_write i) ks ->
  total w' m ks - supply w' m = total w m ks - supply w m.
Proof.
  intros He W Hpk H N I. destruct (exec_calls _ _ _ _ _ W H) as (au & bump & calls & w1 & _ & Hc & Hf & Hw).
  rewrite <- (calls_total _ m ks _ _ _ Hc N).
  2: { eapply Forall_impl; [| exact Hf]. intros c Hi k Hk. apply I, Hi, Hk. }
  destruct Hw as [-> | (C & _ & Hw)]; [reflexivity |].
  pose proof (create_effect _ _ _ _ _ He W Hpk C H) as Eff. cbv zeta in Eff.
  destruct Eff as (f & c & b & ta & tb & tf & td & pm & _ & _ & _ & _ & O & _ & Eff).
  do 24 (destruct Eff as [_ Eff]). destruct Eff as ((O' & _) & _).
  fold (named_pool i) in *.
  pose proof (calls_keep _ _ _ _ Hc (named_pool i)) as O1. rewrite O in O1.
  assert (T : total w' m ks = total w1 m ks).
  { apply total_same. intros k _. destruct (Z.eq_dec k (named_pool i)) as [-> | D]; [| apply held_same, Hw, D].
    unfold held. rewrite O', O1. reflexivity. }
  assert (S : supply w' m = supply w1 m).
  { unfold supply. destruct (Z.eq_dec m (named_pool i)) as [-> | D]; [rewrite O', O1; reflexivity | rewrite (Hw m D); reflexivity]. }
  rewrite T, S. reflexivity.
Qed.

Lemma exec_supply e signers w i w' : env_ok e -> world_wf w -> Forall is_pubkey (instr_accounts i) ->
  exec e signers w i = Ok w' -> forall k, k <> mint_named i -> supply w' k = supply w k.
Proof.
  intros He W Hpk H. destruct (creates_dec i) as [C | C].
  { pose proof (create_effect _ _ _ _ _ He W Hpk C H) as Eff. cbv zeta in Eff.
    destruct Eff as (f & c & b & ta & tb & tf & td & pm & Eff).
    do 33 (destruct Eff as [_ Eff]). destruct Eff as (S & _). intros k Hk. rewrite S, only_at_other; [lia |].
    destruct i; try (destruct C); exact Hk. }
  destruct i as [acc f p | acc a b c d | acc ain mout | acc n ma mb | acc n ma mb | acc n mp | acc n mp];
    try (destruct C; exact I); unfold mint_named; cbn [instr_accounts].
  - destruct (swap_effect _ _ _ _ _ _ _ W H) as (s & r & x & Eff). cbv zeta in Eff.
    destruct Eff as (_ & _ & _ & _ & _ & _ & _ & _ & (_ & S & _)).
    intros k Hk. rewrite S, only_at_other by exact Hk. lia.
  - destruct (deposit_all_effect _ _ _ _ _ _ _ _ W H) as (s & x & y & _ & Eff). cbv zeta in Eff.
    destruct (supply w (nth 7 acc 0) =? 0); destruct Eff as (_ & _ & _ & (_ & S & _));
    intros k Hk; rewrite S, only_at_other by exact Hk; lia.
  - destruct (withdraw_all_effect _ _ _ _ _ _ _ _ W H) as (s & x & y & z & _ & Eff). cbv zeta in Eff.
    destruct Eff as (_ & _ & _ & _ & _ & _ & _ & _ & _ & (_ & S & _)).
    intros k Hk. rewrite S, only_at_other by exact Hk. lia.
  - destruct (deposit_single_effect _ _ _ _ _ _ _ W H) as (s & d & x & _ & Eff). cbv zeta in Eff.
    destruct Eff as (_ & _ & _ & _ & _ & (_ & S & _)).
    intros k Hk. rewrite S, only_at_other by exact Hk. lia.
  - destruct (withdraw_single_effect _ _ _ _ _ _ _ W H) as (s & d & x & y & _ & Eff). cbv zeta in Eff.
    destruct Eff as (_ & _ & _ & _ & _ & _ & _ & (_ & S & _)).
    intros k Hk. rewrite S, only_at_other by exact Hk. lia.
Qed.

Lemma exec_conserves e signers w i w' m ks : env_ok e -> world_wf w -> Forall is_pubkey (instr_accounts i) ->
  exec e signers w i = Ok w' -> NoDup ks -> incl (must_write i) ks -> m <> mint_named i ->
  total w' m ks = total w m ks.
Proof.
  intros He W Hpk H N I D. pose proof (exec_total _ _ _ _ _ m ks He W Hpk H N I) as T.
  rewrite (exec_supply _ _ _ _ _ He W Hpk H m D) in T. lia.
Qed.

(** Over runs. *)
Lemma play_cons e w signers i l : play e w ((signers, i) :: l) = play e (match exec e signers w i with Ok w' => w' | Err _ => w end) l.
Proof. reflexivity. Qed.

Lemma play_total e m ks : env_ok e -> NoDup ks -> forall l w, world_wf w ->
  Forall (fun x => Forall is_pubkey (instr_accounts (snd x)) /\ incl (must_write (snd x)) ks) l ->
  world_wf (play e w l) /\
  total (play e w l) m ks - supply (play e w l) m = total w m ks - supply w m.
Proof.
  intros He N. induction l as [| [signers i] l IH]; intros w W F; [split; [exact W | reflexivity] |].
  rewrite play_cons. inversion F as [| ? ? [F1 F2] F3]; subst. cbn [snd] in *.
  destruct (exec e signers w i) as [w1 | er] eqn:X; [| apply IH; assumption].
  pose proof (exec_wf _ _ _ _ _ He W F1 X) as W1. destruct (IH w1 W1 F3) as (P & Q). split; [exact P |].
  rewrite Q. exact (exec_total _ _ _ _ _ _ _ He W F1 X N F2).
Qed.

Lemma play_supply e m : env_ok e -> forall l w, world_wf w ->
  Forall (fun x => Forall is_pubkey (instr_accounts (snd x)) /\ m <> mint_named (snd x)) l ->
  supply (play e w l) m = supply w m.
Proof.
  intros He. induction l as [| [signers i] l IH]; intros w W F; [reflexivity |].
  rewrite play_cons. inversion F as [| ? ? [F1 F2] F3]; subst. cbn [snd] in *.
  destruct (exec e signers w i) as [w1 | er] eqn:X; [| apply IH; assumption].
  rewrite (IH w1 (exec_wf _ _ _ _ _ He W F1 X) F3). exact (exec_supply _ _ _ _ _ He W F1 X m F2).
Qed.

Lemma play_conserves e m ks l w : env_ok e -> NoDup ks -> world_wf w ->
  Forall (fun x => Forall is_pubkey (instr_accounts (snd x)) /\ incl (must_write (snd x)) ks /\ m <> mint_named (snd x)) l ->
  total (play e w l) m ks = total w m ks.
Proof.
  intros He N W F.
  destruct (play_total e m ks He N l w W) as (_ & T).
  { eapply Forall_impl; [| exact F]. intros x (A & B & _). split; assumption. }
  rewrite (play_supply e m He l w W) in T; [lia |].
  eapply Forall_impl; [| exact F]. intros x (A & _ & B). split; assumption.
Qed.

Lemma play_base e w l m ks : env_ok e -> world_wf w -> NoDup ks ->
  Forall (fun x => Forall is_pubkey (instr_accounts (snd x)) /\ incl (must_write (snd x)) ks /\ m <> mint_named (snd x)) l ->
  supply (play e w l) m = supply w m /\ total (play e w l) m ks = total w m ks.
Proof.
  intros He W N F. split; [| exact (play_conserves e m ks l w He N W F)].
  apply (play_supply e m He l w W). eapply Forall_impl; [| exact F]. intros x (A & _ & B). split; assumption.
Qed.

Lemma exec_base e signers w i w' m : env_ok e -> world_wf w -> Forall is_pubkey (instr_accounts i) ->
  exec e signers w i = Ok w' ->
  let ks := nodup Z.eq_dec (must_write i) in
  total w' m ks - supply w' m = total w m ks - supply w m /\
  (m <> mint_named i -> supply w' m = supply w m /\ total w' m ks = total w m ks).
Proof.
  intros He W Hpk H ks.
  assert (I : incl (must_write i) ks) by (intros k Hk; now apply nodup_In).
  pose proof (exec_total _ _ _ _ _ m ks He W Hpk H (NoDup_nodup _ _) I) as T.
  split; [exact T |]. intros D. pose proof (exec_supply _ _ _ _ _ He W Hpk H m D) as S. split; [exact S | lia].
Qed.
