(** Creation of pools. *)
From Verif Require Import Ints Tactics Fees LinearCurve ConstantPrice SwapCurve Codec Token Processor Api History
  Spec LedgerSpec CurveFacts CodecFacts TokenFacts ProcFacts EffectFacts.

Lemma unpack_initialized l s : swap_unpack l = Ok s -> st_is_initialized s = true.
Proof.
  unfold swap_unpack. intros H. destruct l as [| v rest]; [discriminate |].
  destruct (v =? 1); [| discriminate]. destruct (Nat.eqb _ _); [| discriminate].
  apply rbind_ok in H. destruct H as (s' & _ & H).
  destruct (st_is_initialized s') eqn:E; [| discriminate]. injection H as <-. exact E.
Qed.

Lemma create_inv e signers w i w' : creates i -> exec e signers w i = Ok w' ->
  exists pool authority ka kb mint fee dest tp rest f c,
    instr_accounts i = pool :: authority :: ka :: kb :: mint :: fee :: dest :: tp :: rest /\
    requested i = Some (f, c) /\ fees_wf f /\ curve_wf c /\ In pool signers /\
    process_initialize e signers w f c [pool; authority; ka; kb; mint; fee; dest; tp] = Ok w'.
Proof.
  intros Hc. destruct i; try contradiction; cbn [instr_accounts requested]; start 8.
  - do 11 eexists. split; [reflexivity |]. split; [reflexivity |].
    split; [unfold fees_wf; auto 10 |]. split; [assumption |]. split; assumption.
  - do 11 eexists. split; [reflexivity |]. split; [reflexivity |].
    split; [unfold fees_wf, linear_fees, is_u64, u64_max; cbn; lia |].
    split; [cbn; unfold linear_wf; cbn; auto |]. split; assumption.
Qed.

Lemma create_refused e signers w i l : creates i -> (exists s, pool_at w (named_pool i) s) ->
  forallb u64b (instr_args i) = true -> anchor_accounts 8 0 signers (instr_accounts i) = Ok l ->
  exec e signers w i = Err (ESwap AlreadyInUse).
Proof.
  intros Hc (s & Ow & Hs) Hu Ha.
  assert (L : (8 <= length (instr_accounts i))%nat) by (apply anchor_ok in Ha; tauto).
  assert (Hi : swap_is_initialized (raw_of (a_data (w (named_pool i)))) = true).
  { unfold swap_is_initialized. rewrite Hs. exact (unpack_initialized _ _ Hs). }
  unfold named_pool in Hi.
  destruct i; try contradiction; unfold exec; rewrite Hu; cbn [negb guard rbind instr_accounts] in *;
    rewrite Ha; cbn [rbind]; apply anchor_ok in Ha; destruct Ha as (_ & _ & ->);
    (do 8 (destruct accounts as [| ? accounts]; [exfalso; cbn [length] in L; lia |]));
    cbn [firstn process_initialize nth] in *; rewrite Hi; reflexivity.
Qed.

Lemma create_once e signers w i w' : creates i -> exec e signers w i = Ok w' ->
  forall s, ~ pool_at w (named_pool i) s.
Proof.
  intros Hc H s Hs. unfold exec in H. apply rbind_ok in H. destruct H as (u & Hg & H).
  apply guard_ok in Hg. apply negb_false_iff in Hg.
  assert (A : exists l, anchor_accounts 8 0 signers (instr_accounts i) = Ok l).
  { destruct i; try contradiction; cbn [instr_accounts]; apply rbind_ok in H; destruct H as (l & Hl & _); eauto. }
  destruct A as (l & Hl).
  pose proof (create_refused e signers w i l Hc (ex_intro _ s Hs) Hg Hl) as R.
  unfold exec in R. rewrite Hg in R. cbn [negb guard rbind] in R. congruence.
Qed.

Lemma skipn_u8 n l : Forall is_u8 l -> Forall is_u8 (skipn n l).
Proof.
  intros H. apply Forall_forall. intros x Hx. rewrite Forall_forall in H. apply H. eapply In_skipn. exact Hx.
Qed.
Lemma pack_u8 s dst bytes : swap_state_wf s -> Forall is_u8 dst -> swap_pack s dst = Ok bytes -> Forall is_u8 bytes.
Proof.
  intros W Hd H. destruct dst as [| v rest]; [discriminate |]. unfold swap_pack in H.
  destruct (Nat.eqb _ _); [| discriminate]. injection H as <-. apply Forall_cons_iff in Hd. destruct Hd as [_ Hd].
  destruct W as (Wb & _).
  constructor; [unfold is_u8; lia |]. unfold pack_v1_into, pack_key, pack_fees, pack_curve, overwrite.
  repeat (apply Forall_app; split); try apply to_le_u8; try (constructor; [| constructor]).
  - destruct (st_is_initialized s); unfold is_u8; lia.
  - exact Wb.
  - constructor.
    + destruct (st_curve s); unfold is_u8, curve_tag; lia.
    + unfold pack_calculator. destruct (st_curve s); try apply to_le_u8; [constructor |].
      repeat (apply Forall_app; split); apply to_le_u8.
  - apply skipn_u8, slice_u8, Hd.
Qed.

Lemma create_effect e signers w i w' : env_ok e -> world_wf w -> Forall is_pubkey (instr_accounts i) ->
  creates i -> exec e signers w i = Ok w' ->
  let l := instr_accounts i in
  let pool := nth 0 l 0 in let authority := nth 1 l 0 in let vault_a := nth 2 l 0 in let vault_b := nth 3 l 0 in
  let mint := nth 4 l 0 in let fee := nth 5 l 0 in let dest := nth 6 l 0 in
  exists f c bump ta tb tf td pm,
    requested i = Some (f, c) /\ fees_wf f /\ curve_wf c /\ In pool signers /\
    a_owner (w pool) = PROGRAM_ID /\ (forall s, ~ pool_at w pool s) /\
    find_pda e pool = Some (authority, bump) /\
    token_at w vault_a ta /\ token_at w vault_b tb /\ token_at w fee tf /\ token_at w dest td /\ mint_at w mint pm /\
    t_owner ta = authority /\ t_owner tb = authority /\ t_mint ta <> t_mint tb /\
    t_delegate ta = None /\ t_delegate tb = None /\ t_close_authority ta = None /\ t_close_authority tb = None /\
    m_supply pm = 0 /\ m_authority pm = Some authority /\ m_freeze_authority pm = None /\
    t_mint tf = mint /\ t_owner tf <> authority /\ t_mint td = mint /\ t_owner td <> authority /\
    constraints_ok e f c (t_owner tf) /\ fees_validate f = Ok tt /\ curve_validate c = Ok tt /\
    curve_validate_supply c (t_amount ta) (t_amount tb) = Ok tt /\
    pool_at w' pool (mk_swap_state true bump TOKEN_PROGRAM_ID vault_a vault_b mint (t_mint ta) (t_mint tb) fee f c) /\
    length (raw_of (a_data (w' pool))) = length (raw_of (a_data (w pool))) /\
    (forall k, balance w' k = balance w k + only_at dest k (10 ^ 9)) /\
    (forall k, supply w' k = supply w k + only_at mint k (10 ^ 9)) /\
    (forall k, ~ In k [pool; mint; dest] -> w' k = w k) /\
    (forall k, k <> pool -> sans_amount (w' k) = sans_amount (w k)) /\ world_wf w'.
Proof.
  intros He W Hpk Hc H. pose proof (create_once _ _ _ _ _ Hc H) as Once.
  destruct (create_inv _ _ _ _ _ Hc H)
    as (pool & authority & ka & kb & mint & fee & dest & tp & rest & f & c & Hacc & Hreq & Hf & Hcw & Hsig & Hi).
  unfold named_pool in Once. rewrite Hacc in *. cbn [nth] in *. cbv zeta.
  apply initialize_trace in Hi.
  destruct Hi as (bump & ta & tb & tf & td & pm & w1 & bytes & Hun & Hfind & _ & -> & Hta & Htb & Htf & Htd & Hpm &
    O1 & O2 & O3 & O4 & Au & Nm & Vs & D1 & D2 & C1 & C2 & S0 & Fz & Mf & Cs & Fv & Cv & (auth' & Hpda & Hrun) & Ow & Hpack & ->).
  destruct He as (He1 & He2). destruct (He1 _ _ _ Hfind) as (Hcr & Hb).
  assert (auth' = authority) by congruence. subst auth'.
  pose proof Hrun as Hrun'. apply run_change in Hrun'. destruct Hrun' as (R1 & R2 & R3 & R4 & R5).
  assert (Mtd : t_mint td = mint).
  { cbn [run_ops] in Hrun. apply rbind_ok in Hrun. destruct Hrun as (w2 & Hm & _). apply mint_to_ok in Hm.
    destruct Hm as (mt & td' & _ & T & Hmm & _). now rewrite (token_fun _ _ _ _ Htd T). }
  assert (Hst : swap_state_wf (mk_swap_state true bump TOKEN_PROGRAM_ID ka kb mint (t_mint ta) (t_mint tb) fee f c)).
  { repeat (apply Forall_cons_iff in Hpk; destruct Hpk as [? Hpk]).
    assert (P : forall k t, token_at w k t -> is_pubkey (t_mint t)).
    { intros k t (_ & Hd). specialize (W k). unfold account_wf in W. rewrite Hd in W. tauto. }
    unfold swap_state_wf. cbn [st_bump_seed st_token_program_id st_token_a st_token_b st_pool_mint st_token_a_mint
      st_token_b_mint st_pool_fee_account st_fees st_curve].
    split; [exact Hb |]. split; [unfold is_pubkey, TOKEN_PROGRAM_ID; lia |].
    split; [assumption |]. split; [assumption |]. split; [assumption |].
    split; [exact (P _ _ Hta) |]. split; [exact (P _ _ Htb) |]. split; [assumption |]. split; assumption. }
  assert (Lb : length (raw_of (a_data (w pool))) = 324%nat /\ length bytes = 324%nat) by (eapply swap_pack_length; exact Hpack).
  destruct Lb as (L1 & L2).
  destruct (swap_roundtrip _ (raw_of (a_data (w pool))) Hst L1) as (bytes' & Hpack' & _ & Hunp).
  assert (bytes' = bytes) by congruence. subst bytes'. cbn [st_is_initialized] in Hunp.
  assert (Np : PROGRAM_ID <> TOKEN_PROGRAM_ID) by discriminate.
  assert (Nm' : pool <> mint) by (intros ->; destruct Hpm as (E & _); congruence).
  assert (Nd' : pool <> dest) by (intros ->; destruct Htd as (E & _); congruence).
  do 8 eexists.
  split; [exact Hreq |]. do 5 (split; [eassumption |]). split; [exact Hfind |].
  do 5 (split; [eassumption |]).
  do 2 (split; [assumption |]). split; [assumption |].
  do 4 (split; [assumption |]). do 3 (split; [assumption |]).
  split; [assumption |]. split; [assumption |]. split; [exact Mtd |]. split; [assumption |].
  do 4 (split; [assumption |]).
  split. { unfold pool_at. rewrite upd_same. cbn [a_owner a_data raw_of]. split; [reflexivity | exact Hunp]. }
  split. { rewrite upd_same. cbn [a_data raw_of]. congruence. }
  split. { intros k. destruct (Z.eq_dec k pool) as [-> | N].
    - unfold balance. rewrite upd_same, Ow. cbn [a_owner]. rewrite only_at_other by assumption. reflexivity.
    - rewrite (same_balance w1) by (now apply upd_other). rewrite R1. cbn [sum_ops op_balance].
      change INITIAL_SWAP_POOL_AMOUNT with (10 ^ 9). lia. }
  split. { intros k. destruct (Z.eq_dec k pool) as [-> | N].
    - unfold supply. rewrite upd_same, Ow. cbn [a_owner]. rewrite only_at_other by assumption. reflexivity.
    - rewrite (same_supply w1) by (now apply upd_other). rewrite R2. cbn [sum_ops op_supply].
      change INITIAL_SWAP_POOL_AMOUNT with (10 ^ 9). lia. }
  split. { intros k Hk. rewrite upd_other by (intros ->; apply Hk; now left). apply R3. cbn in *. tauto. }
  split. { intros k Hk. rewrite upd_other by assumption. apply R4. cbn. tauto. }
  assert (W1 : world_wf w1).
  { eapply run_wf; [exact Hrun | | exact W]. constructor; [cbn [op_amount]; unfold INITIAL_SWAP_POOL_AMOUNT; lia | constructor]. }
  intros k. unfold upd. destruct (k =? pool); [| apply W1]. unfold account_wf. cbn [a_data].
  eapply pack_u8; [exact Hst | | exact Hpack]. now apply raw_u8.
Qed.
