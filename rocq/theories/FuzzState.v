(** The ledger during a run of the fuzz test. *)
From Verif Require Import Ints Tactics SplMath Fees LinearCurve ConstantPrice SwapCurve Codec Token Processor Api History
  Spec LedgerSpec WireSpec TotalSpec LiveSpec RequestSpec TraceSpec CurveFacts LinearFacts SwapFacts CurveProps CodecFacts TokenFacts ProcFacts
  AmountFacts EffectFacts TradeFacts CreateFacts PermFacts HistoryFacts TotalFacts LedgerExamples HistoryExamples Fuzz.

Definition fz_pool : swap_state :=
  mk_swap_state true 255 TOKEN_PROGRAM_ID 301 302 403 201 202 303 fuzz_fees (ConstantPrice fuzz_price).

(** A token account nobody but its owner can spend from. *)
Definition holds (w : world) (k owner mint : Z) : Prop :=
  exists t, token_at w k t /\ t_owner t = owner /\ t_mint t = mint /\ t_delegate t = None /\ t_close_authority t = None /\
    t_frozen t = false /\ t_native t = false.

Definition list_a : list Z := 301 :: 4001 :: ids 1000.
Definition list_b : list Z := 302 :: 4002 :: ids 2000.
Definition list_p : list Z := 303 :: 304 :: ids 3000.
Definition holder (k : Z) : Z := if (k =? 301) || (k =? 302) then auth 300 else 900.

Record fz (w : world) : Prop := {
  fz_reach : reachable ex_env w;
  fz_state : pool_at w 300 fz_pool;
  fz_a : forall k, In k list_a -> holds w k (holder k) 201;
  fz_b : forall k, In k list_b -> holds w k (holder k) 202;
  fz_p : forall k, In k list_p -> holds w k 900 403;
  fz_ta : total w 201 list_a = 356000000000;
  fz_tb : total w 202 list_b = 1068000000000;
  fz_tp : total w 403 list_p = supply w 403;
  fz_user : a_owner (w 900) <> TOKEN_PROGRAM_ID;
  fz_auth : a_owner (w (auth 300)) <> TOKEN_PROGRAM_ID }.

Definition list_all : list Z := 403 :: list_a ++ list_b ++ list_p.
Lemma all_nodup : NoDup list_all.
Proof.
  assert (E : nodup Z.eq_dec list_all = list_all) by (vm_compute; reflexivity).
  rewrite <- E. apply NoDup_nodup.
Qed.

Lemma in_ids first id : 0 <= id < 256 -> In (first + id) (ids first).
Proof.
  intros H. unfold ids. apply in_map_iff. exists (Z.to_nat id). split; [rewrite Z2Nat.id by lia; reflexivity |].
  apply in_seq. lia.
Qed.
Lemma ids_in first k : In k (ids first) -> first <= k < first + 256.
Proof.
  unfold ids. intros H. apply in_map_iff in H. destruct H as (n & <- & H). apply in_seq in H. lia.
Qed.

(** Sums of balances. *)
Lemma total_app w m l1 l2 : total w m (l1 ++ l2) = total w m l1 + total w m l2.
Proof. induction l1 as [| k l1 IH]; cbn [app total]; [reflexivity | rewrite IH; lia]. Qed.
Lemma total_zero w m l : (forall k, In k l -> held w m k = 0) -> total w m l = 0.
Proof.
  induction l as [| k l IH]; intros H; cbn [total]; [reflexivity |].
  rewrite (H k (or_introl eq_refl)), IH; [reflexivity |]. intros j Hj. apply H. now right.
Qed.
Lemma held_holds w k o m m' : holds w k o m -> held w m' k = if m =? m' then balance w k else 0.
Proof.
  intros (t & Ht & _ & <- & _). rewrite (held_token _ _ _ _ Ht), (token_balance _ _ _ Ht). reflexivity.
Qed.
Lemma held_nonneg w m k : world_wf w -> 0 <= held w m k.
Proof.
  intros W. specialize (W k). unfold held. destruct (_ =? _); [| lia]. unfold account_wf in W.
  destruct (a_data (w k)); try lia. destruct (_ =? _); [| lia]. unfold is_u64 in W. lia.
Qed.
Lemma total_nonneg w m l : world_wf w -> 0 <= total w m l.
Proof. intros W. induction l as [| k l IH]; cbn [total]; [lia |]. pose proof (held_nonneg w m k W). lia. Qed.
Lemma held_le w m l k : world_wf w -> In k l -> held w m k <= total w m l.
Proof.
  intros W. induction l as [| j l IH]; intros H; [destruct H |]. cbn [total].
  pose proof (total_nonneg w m l W). pose proof (held_nonneg w m j W).
  destruct H as [-> | H]; [lia |]. specialize (IH H). lia.
Qed.

Lemma total_all w m : (forall k, In k list_a -> holds w k (holder k) 201) -> (forall k, In k list_b -> holds w k (holder k) 202) ->
  (forall k, In k list_p -> holds w k 900 403) -> (exists t, mint_at w 403 t) ->
  total w m list_all =
    (if 201 =? m then total w m list_a else 0) + (if 202 =? m then total w m list_b else 0) +
    (if 403 =? m then total w m list_p else 0).
Proof.
  intros A B P (t & T). unfold list_all. cbn [total]. rewrite !total_app, (held_mint _ _ _ _ T).
  assert (Z0 : forall l o n, (forall k, In k l -> holds w k (o k) n) -> total w m l = if n =? m then total w m l else 0).
  { intros l o n H. destruct (n =? m) eqn:E; [reflexivity |]. apply total_zero. intros k Hk.
    rewrite (held_holds _ _ _ _ m (H k Hk)), E. reflexivity. }
  rewrite (Z0 _ _ _ A), (Z0 _ _ _ B), (Z0 _ (fun _ => 900) _ P) at 1. lia.
Qed.

Lemma fz_inv w : fz w -> inv ex_env w.
Proof. intros H. exact (reachable_inv _ _ ex_env_ok (fz_reach _ H)). Qed.
Lemma fz_mint w : reachable ex_env w -> pool_at w 300 fz_pool -> exists t, mint_at w 403 t.
Proof.
  intros R P. destruct (reachable_pool _ _ _ _ ex_env_ok R P) as (au & _ & _ & _ & _ & _ & _ & _ & (m & M & _) & _). eauto.
Qed.
Lemma signers_900 : signers_ok ex_env [900].
Proof. apply ex_signers. lia. Qed.

Lemma run_holds signed l w w' k o m : run_ops signed w l = Ok w' ->
  Forall (fun x => 0 <= op_amount x) l -> holds w k o m -> holds w' k o m.
Proof.
  intros H Ha (t & Ht & H1 & H2 & H3 & H4 & H5 & H6).
  destruct (run_vault _ _ _ _ o k m H Ha (ex_intro _ t (conj Ht (conj H1 (conj H2 (conj H3 H4)))))) as (t' & Ht' & V1 & V2 & V3 & V4).
  apply run_effect in H. destruct H as (_ & _ & _ & _ & _ & _ & _ & B8).
  destruct (sans_token _ _ _ _ (B8 k) Ht) as (t1 & Ht1 & _ & _ & F & N & _). rewrite (token_fun _ _ _ _ Ht1 Ht') in *.
  exists t'. repeat (split; [assumption |]). split; congruence.
Qed.

Lemma fz_step w i w' : fz w -> exec ex_env [900] w i = Ok w' -> ~ creates i -> Forall is_pubkey (instr_accounts i) ->
  incl (must_write i) list_all -> mint_named i = 403 -> fz w'.
Proof.
  intros F H Nc Hpk In M. pose proof (fz_inv _ F) as I. pose proof (proj1 I) as W.
  assert (R' : reachable ex_env w').
  { eapply reachable_step; [exact (fz_reach _ F) |]. apply step_instruction with (signers := [900]) (i := i); try assumption. exact signers_900. }
  destruct (trade_keeps_pools _ _ _ _ _ W H Nc) as (W' & K1 & K2).
  assert (P' : pool_at w' 300 fz_pool).
  { eapply pool_at_eq; [apply K1; exact (not_token _ _ _ (fz_state _ F)) | exact (fz_state _ F)]. }
  destruct (trade_ops _ _ _ _ _ W H Nc) as (s1 & au1 & user & ops & _ & _ & _ & Hrun & Ha & _).
  assert (Hd : forall k o m, holds w k o m -> holds w' k o m) by (intros; eapply run_holds; eauto).
  assert (A' : forall k, List.In k list_a -> holds w' k (holder k) 201) by (intros k Hk; apply Hd, (fz_a _ F), Hk).
  assert (B' : forall k, List.In k list_b -> holds w' k (holder k) 202) by (intros k Hk; apply Hd, (fz_b _ F), Hk).
  assert (C' : forall k, List.In k list_p -> holds w' k 900 403) by (intros k Hk; apply Hd, (fz_p _ F), Hk).
  assert (Ta : forall m, total w' m list_all - supply w' m = total w m list_all - supply w m).
  { intros m. exact (exec_total _ _ _ _ _ m _ ex_env_ok W Hpk H all_nodup In). }
  assert (Sa : forall m, m <> 403 -> supply w' m = supply w m).
  { intros m Hm. apply (exec_supply _ _ _ _ _ ex_env_ok W Hpk H). congruence. }
  assert (Q : forall m, total w m list_all = _) by (intros m; exact (total_all w m (fz_a _ F) (fz_b _ F) (fz_p _ F) (fz_mint _ (fz_reach _ F) (fz_state _ F)))).
  assert (Q' : forall m, total w' m list_all = _) by (intros m; exact (total_all w' m A' B' C' (fz_mint _ R' P'))).
  split; auto.
  - specialize (Ta 201). rewrite Q, Q', (Sa 201) in Ta by discriminate. pose proof (fz_ta _ F) as E.
    change (201 =? 201) with true in Ta. change (202 =? 201) with false in Ta. change (403 =? 201) with false in Ta. cbv iota in Ta. lia.
  - specialize (Ta 202). rewrite Q, Q', (Sa 202) in Ta by discriminate. pose proof (fz_tb _ F) as E.
    change (201 =? 202) with false in Ta. change (202 =? 202) with true in Ta. change (403 =? 202) with false in Ta. cbv iota in Ta. lia.
  - specialize (Ta 403). rewrite Q, Q' in Ta. pose proof (fz_tp _ F) as E.
    change (201 =? 403) with false in Ta. change (202 =? 403) with false in Ta. change (403 =? 403) with true in Ta. cbv iota in Ta. lia.
  - rewrite K2. exact (fz_user _ F).
  - rewrite K2. exact (fz_auth _ F).
Qed.

(** The start. *)
Lemma fz_genesis : genesis_ok fuzz_genesis.
Proof.
  assert (T : forall m o x, is_u64 x -> is_pubkey m -> account_wf (tok m o x)).
  { intros m o x U P. split; [exact U |]. split; [unfold is_u64, u64_max; cbn; lia | exact P]. }
  split.
  - intros k. unfold fuzz_genesis.
    destruct (_ && _); [apply T; vm_compute; intuition congruence |].
    destruct (_ && _); [apply T; vm_compute; intuition congruence |].
    destruct (_ && _); [apply T; vm_compute; intuition congruence |].
    apply (of_list_all _ (fun _ a => account_wf a)); [intros ?; exact (Forall_nil _) |].
    repeat (apply Forall_cons; [| try apply Forall_nil]);
      cbn [snd]; unfold account_wf, zeroed, tok, a_mint; cbn [a_data]; unfold is_u64, u64_max, is_pubkey;
      try (cbn; vm_compute; intuition congruence).
    all: apply Forall_forall; intros x Hx; apply repeat_spec in Hx; subst; unfold is_u8; lia.
  - intros k. unfold fuzz_genesis.
    destruct (_ && _); [intros H; discriminate H |].
    destruct (_ && _); [intros H; discriminate H |].
    destruct (_ && _); [intros H; discriminate H |].
    apply (of_list_all _ (fun _ a => a_owner a = PROGRAM_ID -> ~ versioned (a_data a))).
    + intros _ H. discriminate H.
    + repeat (apply Forall_cons; [| try apply Forall_nil]); cbn [snd]; intros H; try discriminate H; intros (l & E); discriminate E.
Qed.

Definition holdsb (w : world) (k o m : Z) : bool :=
  (a_owner (w k) =? TOKEN_PROGRAM_ID) &&
  match a_data (w k) with
  | DToken t => (t_owner t =? o) && (t_mint t =? m) && match t_delegate t with None => true | _ => false end &&
      match t_close_authority t with None => true | _ => false end && negb (t_frozen t) && negb (t_native t)
  | _ => false
  end.
Lemma holdsb_ok w k o m : holdsb w k o m = true -> holds w k o m.
Proof.
  unfold holdsb. intros H. apply andb_true_iff in H. destruct H as (H1 & H2). apply Z.eqb_eq in H1.
  destruct (a_data (w k)) as [t | |] eqn:E; try discriminate H2. exists t. split; [split; assumption |].
  repeat rewrite andb_true_iff in H2. destruct H2 as (((((A & B) & C) & D) & F) & G).
  apply Z.eqb_eq in A, B. apply negb_true_iff in F, G.
  destruct (t_delegate t); [discriminate C |]. destruct (t_close_authority t); [discriminate D |]. auto 8.
Qed.
Lemma holds_list w l (o : Z -> Z) m : forallb (fun k => holdsb w k (o k) m) l = true -> forall k, In k l -> holds w k (o k) m.
Proof. intros H k Hk. rewrite forallb_forall in H. apply holdsb_ok, H, Hk. Qed.

Lemma fz_start : fz fuzz_start.
Proof.
  split.
  - apply (reachable_step _ fuzz_genesis (Instruction [300] fuzz_init)).
    + exists fuzz_genesis, []. split; [exact fz_genesis | constructor].
    + apply ex_run; [apply ex_signers; lia | | reflexivity | vm_compute; reflexivity].
      repeat (apply Forall_cons; [vm_compute; intuition congruence |]). apply Forall_nil.
  - split; vm_compute; reflexivity.
  - apply holds_list. vm_compute. reflexivity.
  - apply holds_list. vm_compute. reflexivity.
  - apply (holds_list _ _ (fun _ => 900)). vm_compute. reflexivity.
  - vm_compute. reflexivity.
  - vm_compute. reflexivity.
  - vm_compute. reflexivity.
  - vm_compute. discriminate.
  - vm_compute. discriminate.
Qed.
