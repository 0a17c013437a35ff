(** The error of every instruction means what it says. *)
From Verif Require Import Ints Tactics Fees LinearCurve SwapCurve Codec Token Processor Api History
  Spec LedgerSpec CallSpec ErrorSpec CurveFacts LinearProps CodecFacts TokenFacts ProcFacts AmountFacts EffectFacts CreateFacts CallFacts ExactFacts ErrorFacts.

Lemma token_ok' w k t : unpack_token_account w k TOKEN_PROGRAM_ID = Ok t -> token_at w k t.
Proof.
  unfold unpack_token_account, token_at. destruct (Z.eqb_spec (a_owner (w k)) TOKEN_PROGRAM_ID); cbn [negb]; [| discriminate].
  destruct (a_data (w k)); intros H; try discriminate. split; [assumption | congruence].
Qed.
Lemma mint_ok' w k t : unpack_mint w k TOKEN_PROGRAM_ID = Ok t -> mint_at w k t.
Proof.
  unfold unpack_mint, mint_at. destruct (Z.eqb_spec (a_owner (w k)) TOKEN_PROGRAM_ID); cbn [negb]; [| discriminate].
  destruct (a_data (w k)); intros H; try discriminate. split; [assumption | congruence].
Qed.

Ltac bstep H x Hx := apply bind_err in H; destruct H as [H | (x & Hx & H)].
(* a guard: the first goal is its failure *)
Ltac gstep H Hx := let x := fresh in bstep H x Hx;
  [apply guard_err in H; destruct H as [H ->] | apply guard_ok in Hx; clear x].
Lemma negb_eq_t x y : negb (x =? y) = true -> x <> y.
Proof. intros Q. apply negb_true_iff, Z.eqb_neq in Q. exact Q. Qed.
Lemma negb_eq_f x y : negb (x =? y) = false -> x = y.
Proof. intros Q. apply negb_false_iff, Z.eqb_eq in Q. exact Q. Qed.
Lemma authority_ok' e k b a : authority_id e k b = Ok a -> create_pda e k b = Some a.
Proof. unfold authority_id. destruct (create_pda e k b); congruence. Qed.
Lemma u64_ok' x y : to_u64 x = Ok y -> y = x /\ x <= u64_max.
Proof. unfold to_u64. destruct (Z.leb_spec x u64_max); intros Q; [split; [congruence | assumption] | discriminate]. Qed.

Lemma swap_error e signers w accounts ain mout err s :
  pool_at w (nth 0 accounts 0) s -> st_token_program_id s = TOKEN_PROGRAM_ID ->
  exec e signers w (Swap accounts ain mout) = Err err -> swap_fault e signers w s accounts ain mout err.
Proof.
  intros Hp Htp H. unfold exec in H.
  bstep H u Hu. { apply args_err in H. destruct H as [-> H].
    unfold swap_fault. do 10 (destruct accounts as [| ? accounts]; [right; split; [reflexivity | exact H] |]). exact H. }
  bstep H l Hl. { apply anchor_err in H. destruct H as [(L & ->) | (L & N & ->)].
    - unfold swap_fault. do 10 (destruct accounts as [| ? accounts]; [now left |]). cbn [length] in L. lia.
    - unfold swap_fault. do 10 (destruct accounts as [| ? accounts]; [cbn [length] in L; lia |]). exact N. }
  apply anchor_ok in Hl. destruct Hl as (L & Hs & ->).
  destruct accounts as [| pool [| authority [| user [| source [| ssrc [| sdst [| dest [| mint [| fee [| program rest]]]]]]]]]];
    try (cbn [length] in L; lia).
  cbn [nth] in Hp, Hs. cbn [firstn process_swap] in H. unfold swap_fault.
  destruct Hp as [Hown Hst]. rewrite Hown in H.
  gstep H G1. { discriminate. }
  bstep H s' Hs'. { congruence. } rewrite Hst in Hs'. injection Hs' as <-.
  bstep H au Hau. { apply authority_err in H. destruct H as [H ->]. congruence. }
  apply authority_ok' in Hau. rewrite Htp in H.
  gstep H G2. { apply negb_eq_t in H. congruence. }
  apply negb_eq_f in G2. subst au.
  gstep H G3. { apply negb_true_iff, orb_false_iff in H. destruct H as [H1 H2]. apply Z.eqb_neq in H1, H2. left. split; assumption. }
  gstep H G4. { apply negb_true_iff, orb_false_iff in H. destruct H as [H1 H2]. apply Z.eqb_neq in H1, H2. right. split; assumption. }
  gstep H G5. { apply Z.eqb_eq in H. now left. }
  gstep H G6. { apply Z.eqb_eq in H. now right; left. }
  gstep H G7. { apply Z.eqb_eq in H. now right; right. }
  gstep H G8. { now apply negb_eq_t in H. }
  gstep H G9. { now apply negb_eq_t in H. }
  gstep H G10. { apply negb_eq_t in H. now left. }
  apply negb_eq_f in G10. subst program.
  bstep H ta Ta. { apply token_err in H. destruct H as [[H ->] | [H ->]].
    - right. exists ssrc. split; [now left | exact H].
    - exists ssrc. split; [now left | exact H]. }
  bstep H tb Tb. { apply token_err in H. destruct H as [[H ->] | [H ->]].
    - right. exists sdst. split; [now right; left | exact H].
    - exists sdst. split; [now right; left | exact H]. }
  bstep H pm Tm. { apply mint_err in H. destruct H as [[H ->] | [H ->]].
    - right. exists mint. split; [now right; right; left | exact H].
    - exact H. }
  apply token_ok' in Ta, Tb. apply mint_ok' in Tm. cbv zeta in H |- *.
  set (d := if ssrc =? st_token_a s then AtoB else BtoA) in *.
  assert (Q : forall q, curve_swap (st_curve s) ain (t_amount ta) (t_amount tb) d (st_fees s) = q ->
    exists ta tb, token_at w ssrc ta /\ token_at w sdst tb /\
      curve_swap (st_curve s) ain (t_amount ta) (t_amount tb) d (st_fees s) = q).
  { intros q Hq. exists ta, tb. split; [exact Ta |]. split; [exact Tb | exact Hq]. }
  bstep H r Hr. { apply ok_or_err in H. destruct H as [[H ->] | [H ->]]; [now apply Q | left; now apply Q]. }
  apply ok_or_ok in Hr. apply Q in Hr. clear Q.
  assert (E : forall X (k : Z -> Z -> X) d, (let (a, b) := match d with
      | AtoB => (new_swap_source_amount r, new_swap_destination_amount r)
      | BtoA => (new_swap_destination_amount r, new_swap_source_amount r) end in k a b)
      = k (side_a d (new_swap_source_amount r) (new_swap_destination_amount r))
          (side_b d (new_swap_source_amount r) (new_swap_destination_amount r))) by (intros X k []; reflexivity).
  rewrite E in H. clear E.
  gstep H G11. { apply Z.ltb_lt in H. exists r. split; [exact Hr | exact H]. }
  apply Z.ltb_ge in G11.
  bstep H sx Hx. { apply u64_err in H. destruct H as [H ->]. exists r. split; [exact Hr |]. split; [exact G11 |]. now left. }
  apply u64_ok' in Hx. destruct Hx as [-> Hx].
  bstep H w1 W1. { apply (wtransfer_err _ _ _ _ _ _ _ _ _ _ _ Hau) in H. destruct H as [-> H].
    exists r. split; [exact Hr |]. split; [exact G11 |]. left. now apply refused_here. }
  apply (wtransfer_ok _ _ _ _ _ _ _ _ _ _ _ Hau) in W1.
  assert (Q : forall q, curve_withdraw_single (st_curve s) (owner_fee r)
          (side_a d (new_swap_source_amount r) (new_swap_destination_amount r))
          (side_b d (new_swap_source_amount r) (new_swap_destination_amount r))
          (m_supply pm) d (st_fees s) = q -> exists pm, mint_at w mint pm /\ curve_withdraw_single (st_curve s) (owner_fee r)
          (side_a d (new_swap_source_amount r) (new_swap_destination_amount r))
          (side_b d (new_swap_source_amount r) (new_swap_destination_amount r))
          (m_supply pm) d (st_fees s) = q).
  { intros q Hq. exists pm. split; [exact Tm | exact Hq]. }
  bstep H p Hpt. { apply ok_or_err in H. destruct H as [[H ->] | [H ->]];
    [exists r; split; [exact Hr | now apply Q] | right; exists r; split; [exact Hr | now apply Q]]. }
  apply ok_or_ok in Hpt. apply Q in Hpt. clear Q.
  bstep H w2 W2. { unfold mint_owner_fee in H. destruct (Z.ltb_spec 0 p) as [P | P]; [| discriminate].
    cbn [rbind] in H. bstep H p' Hp'.
    - apply u64_err in H. destruct H as [H ->]. exists r. split; [exact Hr |]. split; [exact G11 |].
      right; right. exists p. split; [exact Hpt | exact H].
    - apply u64_ok' in Hp'. destruct Hp' as [-> Hp']. apply (wmint_err _ _ _ _ _ _ _ _ _ _ _ Hau) in H. destruct H as [-> H].
      exists r. split; [exact Hr |]. split; [exact G11 |]. right. exists p. split; [exact Hpt |].
      eapply refused_later; [exact W1 |]. now apply refused_any. }
  assert (C2 : calls_ok (authority :: signers) w1 (if_any p (CMint mint fee authority p)) w2).
  { unfold mint_owner_fee, if_any in *. destruct (0 <? p).
    - cbn [rbind] in W2. apply rbind_ok in W2. destruct W2 as (p' & Hp' & W2). apply u64_ok' in Hp'. destruct Hp' as [-> Hp'].
      apply (wmint_ok _ _ _ _ _ _ _ _ _ _ _ Hau) in W2. exists w2. split; [exact W2 | reflexivity].
    - cbn [calls_ok]. congruence. }
  bstep H dx Hdx. { apply u64_err in H. destruct H as [H ->]. exists r. split; [exact Hr |]. split; [exact G11 |]. right; now left. }
  apply u64_ok' in Hdx. destruct Hdx as [-> Hdx].
  apply (wtransfer_err _ _ _ _ _ _ _ _ _ _ _ Hau) in H. destruct H as [-> H].
  exists r. split; [exact Hr |]. split; [exact G11 |]. right. exists p. split; [exact Hpt |].
  eapply refused_later; [exact W1 |]. eapply refused_app; [exact C2 |]. now apply refused_here.
Qed.

(** Account checks of the liquidity instructions as an error of the whole. *)
Lemma deposit_all_error e signers w accounts n ma mb err s : world_wf w ->
  pool_at w (nth 0 accounts 0) s -> st_token_program_id s = TOKEN_PROGRAM_ID ->
  exec e signers w (DepositAll accounts n ma mb) = Err err -> deposit_all_fault e signers w s accounts n ma mb err.
Proof.
  intros W Hp Htp H. unfold exec in H.
  bstep H u Hu. { apply args_err in H. destruct H as [-> H].
    unfold deposit_all_fault. do 10 (destruct accounts as [| ? accounts]; [right; split; [reflexivity | exact H] |]). exact H. }
  bstep H l Hl. { apply anchor_err in H. destruct H as [(L & ->) | (L & N & ->)].
    - unfold deposit_all_fault. do 10 (destruct accounts as [| ? accounts]; [now left |]). cbn [length] in L. lia.
    - unfold deposit_all_fault. do 10 (destruct accounts as [| ? accounts]; [cbn [length] in L; lia |]). exact N. }
  assert (Ua : is_u64 n).
  { apply guard_ok, negb_false_iff in Hu. cbn [instr_args forallb] in Hu. apply andb_true_iff in Hu. now apply u64b_ok. }
  apply anchor_ok in Hl. destruct Hl as (L & Hs & ->).
  destruct accounts as [| pool [| authority [| user [| sa [| sb [| va [| vb [| mint [| dest [| program rest]]]]]]]]]];
    try (cbn [length] in L; lia).
  cbn [nth] in Hp, Hs. cbn [firstn process_deposit_all] in H. unfold deposit_all_fault.
  pose proof Hp as [Hown Hst].
  bstep H s' Hs'. { congruence. } rewrite Hst in Hs'. injection Hs' as <-.
  gstep H G1. { apply negb_true_iff in H. intros T. apply takes_deposits_iff in T. congruence. }
  bstep H u' Hc. { apply (check_err _ _ _ _ _ _ _ _ _ _ _ _ _ Hown Htp) in H. destruct H as (err' & -> & H).
    destruct err'; cbn [account_fault] in H; try contradiction; left; exact H. }
  apply check_ok' in Hc. destruct Hc as (Hau & -> & -> & -> & ->). rewrite Htp in H |- *.
  bstep H ta Ta. { apply token_err in H. destruct H as [[H ->] | [H ->]].
    - right. split; [reflexivity |]. exists (st_token_a s). split; [now left | exact H].
    - exists (st_token_a s). split; [now left | exact H]. }
  bstep H tb Tb. { apply token_err in H. destruct H as [[H ->] | [H ->]].
    - right. split; [reflexivity |]. exists (st_token_b s). split; [now right; left | exact H].
    - exists (st_token_b s). split; [now right; left | exact H]. }
  bstep H pm Tm. { apply mint_err in H. destruct H as [[H ->] | [H ->]].
    - right. split; [reflexivity |]. exists (st_pool_mint s). split; [now right; right; left | exact H].
    - exact H. }
  apply token_ok' in Ta, Tb. apply mint_ok' in Tm.
  destruct (mint_u64 _ _ _ W Tm) as [Um Um']. cbv zeta in H |- *.
  rewrite (supply_zero _ Um) in H. change (new_pool_supply (st_curve s)) with (10 ^ 9) in H.
  set (m := if m_supply pm =? 0 then 10 ^ 9 else n).
  set (q := pool_tokens_to_trading_tokens (st_curve s) m (if m_supply pm =? 0 then 10 ^ 9 else m_supply pm)
          (t_amount ta) (t_amount tb) Ceiling).
  assert (Q : forall q', q = q' -> exists ta tb pm, token_at w (st_token_a s) ta /\ token_at w (st_token_b s) tb /\
     mint_at w (st_pool_mint s) pm /\ m = (if m_supply pm =? 0 then 10 ^ 9 else n) /\
     pool_tokens_to_trading_tokens (st_curve s) m (if m_supply pm =? 0 then 10 ^ 9 else m_supply pm)
          (t_amount ta) (t_amount tb) Ceiling = q').
  { intros q' Hq. exists ta, tb, pm. split; [exact Ta |]. split; [exact Tb |]. split; [exact Tm |]. split; [reflexivity | exact Hq]. }
  assert (H' : (do! (ra, rb) := ok_or q (ESwap ZeroTradingTokens) in
      do! a := to_u64 ra in
      do! _ := guard (ma <? a) (ESwap ExceededSlippage) in
      do! _ := guard (a =? 0) (ESwap ZeroTradingTokens) in
      do! b := to_u64 rb in
      do! _ := guard (mb <? b) (ESwap ExceededSlippage) in
      do! _ := guard (b =? 0) (ESwap ZeroTradingTokens) in
      do! p := to_u64 m in
      do! w1 := token_transfer e signers w pool TOKEN_PROGRAM_ID sa (st_token_a s) user (st_bump_seed s) a in
      do! w2 := token_transfer e signers w1 pool TOKEN_PROGRAM_ID sb (st_token_b s) user (st_bump_seed s) b in
      token_mint_to e signers w2 pool TOKEN_PROGRAM_ID (st_pool_mint s) dest authority (st_bump_seed s) p) = Err err).
  { unfold q, m. destruct (m_supply pm =? 0); exact H. }
  clear H. rename H' into H.
  assert (Um2 : m <= u64_max). { unfold m, is_u64, u64_max in *. destruct (_ =? 0); lia. }
  clearbody m.
  bstep H r Hr. { apply ok_or_err in H. destruct H as [[H ->] | [H ->]]; apply Q in H; exists m; [now left | exact H]. }
  apply ok_or_ok in Hr. destruct r as [a b]. apply Q in Hr. clear Q.
  bstep H sx Hx. { apply u64_err in H. destruct H as [H ->]. exists m, a, b. split; [exact Hr |]. now left. }
  apply u64_ok' in Hx. destruct Hx as [-> Hx].
  gstep H G2. { apply Z.ltb_lt in H. exists m, a, b. split; [exact Hr |]. now left. }
  gstep H G3. { apply Z.eqb_eq in H. exists m. right. exists a, b. split; [exact Hr |]. now left. }
  bstep H sy Hy. { apply u64_err in H. destruct H as [H ->]. exists m, a, b. split; [exact Hr |]. now right. }
  apply u64_ok' in Hy. destruct Hy as [-> Hy].
  gstep H G4. { apply Z.ltb_lt in H. exists m, a, b. split; [exact Hr |]. now right. }
  gstep H G5. { apply Z.eqb_eq in H. exists m. right. exists a, b. split; [exact Hr |]. now right. }
  apply Z.ltb_ge in G2, G4.
  bstep H sp Hsp. { apply u64_err in H. destruct H as [H ->]. lia. }
  apply u64_ok' in Hsp. destruct Hsp as [-> Hsp].
  assert (R : err = EToken /\ refused (authority :: signers) w
      [CTransfer sa (st_token_a s) user a; CTransfer sb (st_token_b s) user b; CMint (st_pool_mint s) dest authority m]).
  { bstep H w1 W1. { apply (wtransfer_err _ _ _ _ _ _ _ _ _ _ _ Hau) in H. destruct H as [-> H]. split; [reflexivity |].
      now apply refused_here. }
    apply (wtransfer_ok _ _ _ _ _ _ _ _ _ _ _ Hau) in W1.
    bstep H w2 W2. { apply (wtransfer_err _ _ _ _ _ _ _ _ _ _ _ Hau) in H. destruct H as [-> H]. split; [reflexivity |].
      eapply refused_later; [exact W1 |]. now apply refused_here. }
    apply (wtransfer_ok _ _ _ _ _ _ _ _ _ _ _ Hau) in W2.
    apply (wmint_err _ _ _ _ _ _ _ _ _ _ _ Hau) in H. destruct H as [-> H]. split; [reflexivity |].
    eapply refused_later; [exact W1 |]. eapply refused_later; [exact W2 |]. now apply refused_here. }
  destruct R as [-> R]. exists m, a, b. split; [exact Hr |]. split; [exact G2 |]. split; [exact G4 |].
  apply Z.eqb_neq in G3, G5. split; [exact G3 |]. split; [exact G5 | exact R].
Qed.

Lemma exit_err s source n err :
  (if st_pool_fee_account s =? source then Ok 0 else ok_or (owner_withdraw_fee (st_fees s) n) (ESwap FeeCalculationFailure)) = Err err ->
  exit_fee s source n = Non /\ err = ESwap FeeCalculationFailure \/ exit_fee s source n = Panic /\ err = EPanic.
Proof. unfold exit_fee. destruct (_ =? _); [discriminate |]. apply ok_or_err. Qed.
Lemma exit_ok s source n x :
  (if st_pool_fee_account s =? source then Ok 0 else ok_or (owner_withdraw_fee (st_fees s) n) (ESwap FeeCalculationFailure)) = Ok x ->
  exit_fee s source n = Val x.
Proof. unfold exit_fee. destruct (_ =? _); [congruence |]. apply ok_or_ok. Qed.

(** The optional fee transfer before a burn. *)
Lemma fee_step_err e signers w k s d a b x au err : create_pda e k b = Some au -> x <= u64_max ->
  (if 0 <? x then do! y := to_u64 x in token_transfer e signers w k TOKEN_PROGRAM_ID s d a b y else Ok w) = Err err ->
  err = EToken /\ 0 < x /\ forall w2, ~ call_ok (au :: signers) w (CTransfer s d a x) w2.
Proof.
  intros P U. destruct (Z.ltb_spec 0 x) as [X | X]; [| discriminate]. rewrite (to_u64_eq _ U). cbn [rbind]. intros H.
  apply (wtransfer_err _ _ _ _ _ _ _ _ _ _ _ P) in H. destruct H as [H1 H2]. split; [exact H1 |]. split; assumption.
Qed.
Lemma fee_step_ok e signers w k s d a b x au w1 : create_pda e k b = Some au -> x <= u64_max ->
  (if 0 <? x then do! y := to_u64 x in token_transfer e signers w k TOKEN_PROGRAM_ID s d a b y else Ok w) = Ok w1 ->
  calls_ok (au :: signers) w (if_any x (CTransfer s d a x)) w1.
Proof.
  intros P U. unfold if_any. destruct (0 <? x); [| cbn [calls_ok]; congruence]. rewrite (to_u64_eq _ U). cbn [rbind]. intros H.
  apply (wtransfer_ok _ _ _ _ _ _ _ _ _ _ _ P) in H. exists w1. split; [exact H | reflexivity].
Qed.
Lemma some_step_err e signers w k s d a b x au err : create_pda e k b = Some au ->
  (if 0 <? x then token_transfer e signers w k TOKEN_PROGRAM_ID s d a b x else Ok w) = Err err ->
  err = EToken /\ 0 < x /\ forall w2, ~ call_ok (au :: signers) w (CTransfer s d a x) w2.
Proof.
  intros P. destruct (Z.ltb_spec 0 x) as [X | X]; [| discriminate]. intros H.
  apply (wtransfer_err _ _ _ _ _ _ _ _ _ _ _ P) in H. destruct H as [H1 H2]. split; [exact H1 |]. split; assumption.
Qed.
Lemma some_step_ok e signers w k s d a b x au w1 : create_pda e k b = Some au ->
  (if 0 <? x then token_transfer e signers w k TOKEN_PROGRAM_ID s d a b x else Ok w) = Ok w1 ->
  calls_ok (au :: signers) w (if_any x (CTransfer s d a x)) w1.
Proof.
  intros P. unfold if_any. destruct (0 <? x); [| cbn [calls_ok]; congruence]. intros H.
  apply (wtransfer_ok _ _ _ _ _ _ _ _ _ _ _ P) in H. exists w1. split; [exact H | reflexivity].
Qed.

Lemma withdraw_all_error e signers w accounts n ma mb err s : world_wf w ->
  pool_at w (nth 0 accounts 0) s -> st_token_program_id s = TOKEN_PROGRAM_ID ->
  exec e signers w (WithdrawAll accounts n ma mb) = Err err -> withdraw_all_fault e signers w s accounts n ma mb err.
Proof.
  intros W Hp Htp H. unfold exec in H.
  bstep H u Hu. { apply args_err in H. destruct H as [-> H].
    unfold withdraw_all_fault. do 11 (destruct accounts as [| ? accounts]; [right; split; [reflexivity | exact H] |]). exact H. }
  bstep H l Hl. { apply anchor_err in H. destruct H as [(L & ->) | (L & N & ->)].
    - unfold withdraw_all_fault. do 11 (destruct accounts as [| ? accounts]; [now left |]). cbn [length] in L. lia.
    - unfold withdraw_all_fault. do 11 (destruct accounts as [| ? accounts]; [cbn [length] in L; lia |]). exact N. }
  assert (Ua : is_u64 n).
  { apply guard_ok, negb_false_iff in Hu. cbn [instr_args forallb] in Hu. apply andb_true_iff in Hu. now apply u64b_ok. }
  apply anchor_ok in Hl. destruct Hl as (L & Hs & ->).
  destruct accounts as [| pool [| authority [| user [| mint [| source [| va [| vb [| da [| db [| fee [| program rest]]]]]]]]]]];
    try (cbn [length] in L; lia).
  cbn [nth] in Hp, Hs. cbn [firstn process_withdraw_all] in H. unfold withdraw_all_fault.
  destruct (pool_wf _ _ _ W Hp) as (Ws & _). destruct Ws as (_ & _ & _ & _ & _ & _ & _ & _ & Wf & _).
  pose proof Hp as [Hown Hst].
  bstep H s' Hs'. { congruence. } rewrite Hst in Hs'. injection Hs' as <-.
  bstep H u' Hc. { apply (check_err _ _ _ _ _ _ _ _ _ _ _ _ _ Hown Htp) in H. destruct H as (err' & -> & H).
    destruct err'; cbn [account_fault] in H; try contradiction; left; exact H. }
  assert (Hfee : fee = st_pool_fee_account s).
  { unfold check_accounts in Hc. do 9 (apply rbind_ok in Hc; destruct Hc as (? & _ & Hc)). apply guard_ok in Hc. now apply negb_eq_f. }
  subst fee.
  apply check_ok' in Hc. destruct Hc as (Hau & -> & -> & -> & ->). rewrite Htp in H |- *.
  bstep H ta Ta. { apply token_err in H. destruct H as [[H ->] | [H ->]].
    - right. split; [reflexivity |]. exists (st_token_a s). split; [now left | exact H].
    - exists (st_token_a s). split; [now left | exact H]. }
  bstep H tb Tb. { apply token_err in H. destruct H as [[H ->] | [H ->]].
    - right. split; [reflexivity |]. exists (st_token_b s). split; [now right; left | exact H].
    - exists (st_token_b s). split; [now right; left | exact H]. }
  bstep H pm Tm. { apply mint_err in H. destruct H as [[H ->] | [H ->]].
    - right. split; [reflexivity |]. exists (st_pool_mint s). split; [now right; right; left | exact H].
    - exact H. }
  apply token_ok' in Ta, Tb. apply mint_ok' in Tm.
  cbv zeta in H |- *.
  bstep H x Hx. { apply exit_err in H. destruct H as [[H ->] | [H ->]]; [exact H | left; exact H]. }
  apply exit_ok in Hx.
  bstep H rest' Hrest. { apply ok_or_err in H. destruct H as [[H ->] | [H ->]].
    - exists x. split; [exact Hx |]. unfold csub in H. destruct (Z.leb_spec x n); [discriminate | assumption].
    - now apply csub_no_panic in H. }
  apply ok_or_ok, csub_val in Hrest. destruct Hrest as [-> Hxn].
  set (ha := t_amount ta) in *. set (hb := t_amount tb) in *.
  assert (Q : forall q', pool_tokens_to_trading_tokens (st_curve s) (n - x) (m_supply pm) ha hb Floor = q' ->
     exists ta tb pm, token_at w (st_token_a s) ta /\ token_at w (st_token_b s) tb /\
     mint_at w (st_pool_mint s) pm /\ ha = t_amount ta /\ hb = t_amount tb /\
     pool_tokens_to_trading_tokens (st_curve s) (n - x) (m_supply pm) ha hb Floor = q').
  { intros q' Hq. exists ta, tb, pm. split; [exact Ta |]. split; [exact Tb |]. split; [exact Tm |]. split; [reflexivity |].
    split; [reflexivity | exact Hq]. }
  clearbody ha hb.
  bstep H r Hr. { apply ok_or_err in H. destruct H as [[H ->] | [H ->]]; apply Q in H.
    - exists x, ha, hb. split; [exact Hx |]. now left.
    - right. exists x, ha, hb. split; [exact Hx | exact H]. }
  apply ok_or_ok in Hr. destruct r as [a b]. apply Q in Hr. clear Q.
  bstep H sx Hsx. { apply u64_err in H. destruct H as [H ->]. exists x, ha, hb, a, b. split; [exact Hx |]. split; [exact Hr |]. now left. }
  apply u64_ok' in Hsx. destruct Hsx as [-> Hsx].
  gstep H G1. { apply Z.ltb_lt in H. exists x, ha, hb, a, b. split; [exact Hx |]. split; [exact Hr |]. now left. }
  gstep H G2. { apply andb_true_iff in H. destruct H as [H1 H2]. apply Z.eqb_eq in H1. apply negb_eq_t in H2.
    exists x, ha, hb. split; [exact Hx |]. right. exists a, b. split; [exact Hr |]. left. split; assumption. }
  bstep H sy Hsy. { apply u64_err in H. destruct H as [H ->]. exists x, ha, hb, a, b. split; [exact Hx |]. split; [exact Hr |]. now right. }
  apply u64_ok' in Hsy. destruct Hsy as [-> Hsy].
  gstep H G3. { apply Z.ltb_lt in H. exists x, ha, hb, a, b. split; [exact Hx |]. split; [exact Hr |]. now right. }
  gstep H G4. { apply andb_true_iff in H. destruct H as [H1 H2]. apply Z.eqb_eq in H1. apply negb_eq_t in H2.
    exists x, ha, hb. split; [exact Hx |]. right. exists a, b. split; [exact Hr |]. right. split; assumption. }
  apply Z.ltb_ge in G1, G3.
  assert (Hx0 : 0 <= x).
  { unfold exit_fee in Hx. destruct (_ =? _); [injection Hx; lia |]. eapply withdraw_fee_bound; [exact Wf | | exact Hx].
    unfold is_u64, u64_max, u128_max in *. lia. }
  unfold is_u64 in Ua.
  assert (R : err = EToken /\ refused (authority :: signers) w
      (if_any x (CTransfer source (st_pool_fee_account s) user x) ++
       [CBurn source (st_pool_mint s) user (n - x)] ++
       if_any (Z.min ha a) (CTransfer (st_token_a s) da authority (Z.min ha a)) ++
       if_any (Z.min hb b) (CTransfer (st_token_b s) db authority (Z.min hb b)))).
  { assert (Ux : x <= u64_max) by lia.
    bstep H w1 W1. { apply (fee_step_err _ _ _ _ _ _ _ _ _ _ _ Hau Ux) in H. destruct H as (-> & X & H).
      split; [reflexivity |]. now apply refused_any. }
    apply (fee_step_ok _ _ _ _ _ _ _ _ _ _ _ Hau Ux) in W1.
    bstep H p64 Hp64. { apply u64_err in H. destruct H as [H _]. lia. }
    apply u64_ok' in Hp64. destruct Hp64 as [-> _].
    bstep H w2 W2. { apply (wburn_err _ _ _ _ _ _ _ _ _ _ _ Hau) in H. destruct H as (-> & H).
      split; [reflexivity |]. eapply refused_app; [exact W1 |]. now apply refused_here. }
    apply (wburn_ok _ _ _ _ _ _ _ _ _ _ _ Hau) in W2.
    bstep H w3 W3. { apply (some_step_err _ _ _ _ _ _ _ _ _ _ _ Hau) in H. destruct H as (-> & X & H).
      split; [reflexivity |]. eapply refused_app; [exact W1 |]. eapply refused_later; [exact W2 |]. now apply refused_any. }
    apply (some_step_ok _ _ _ _ _ _ _ _ _ _ _ Hau) in W3.
    apply (some_step_err _ _ _ _ _ _ _ _ _ _ _ Hau) in H. destruct H as (-> & X & H).
    split; [reflexivity |]. eapply refused_app; [exact W1 |]. eapply refused_later; [exact W2 |].
    eapply refused_app; [exact W3 |]. now apply refused_any'. }
  destruct R as [-> R]. exists x, ha, hb, a, b. split; [exact Hx |]. split; [exact Hr |]. split; [exact G1 |].
  split; [exact G3 |]. split; [| split; [| split; [exact Hsx | split; [exact Hsy | exact R]]]].
  - intros E. rewrite E in G2. cbn in G2. now apply negb_eq_f in G2.
  - intros E. rewrite E in G4. cbn in G4. now apply negb_eq_f in G4.
Qed.

Lemma direction_err mint ma mb err :
  (if mint =? ma then Ok AtoB else if mint =? mb then Ok BtoA else Err (ESwap IncorrectSwapAccount)) = Err err ->
  mint <> ma /\ mint <> mb /\ err = ESwap IncorrectSwapAccount.
Proof.
  destruct (Z.eqb_spec mint ma); [discriminate |]. destruct (Z.eqb_spec mint mb); [discriminate |].
  intros H. split; [assumption |]. split; [assumption | congruence].
Qed.
Lemma direction_ok mint ma mb d :
  (if mint =? ma then Ok AtoB else if mint =? mb then Ok BtoA else Err (ESwap IncorrectSwapAccount)) = Ok d ->
  picks mint ma mb d.
Proof.
  unfold picks. destruct (Z.eqb_spec mint ma); [intros H; injection H as <-; assumption |].
  destruct (Z.eqb_spec mint mb); intros H; [injection H as <-; split; assumption | discriminate].
Qed.
Lemma single_quote_err (b : bool) (m : outcome Z) np err :
  (if negb b then ok_or m (ESwap ZeroTradingTokens) else Ok np) = Err err ->
  (if b then Val np else m) = Non /\ err = ESwap ZeroTradingTokens \/ (if b then Val np else m) = Panic /\ err = EPanic.
Proof. destruct b; cbn [negb]; [discriminate |]. apply ok_or_err. Qed.
Lemma single_quote_ok (b : bool) (m : outcome Z) np p :
  (if negb b then ok_or m (ESwap ZeroTradingTokens) else Ok np) = Ok p -> (if b then Val np else m) = Val p.
Proof. destruct b; cbn [negb]; [congruence |]. apply ok_or_ok. Qed.

Lemma deposit_single_error e signers w accounts n mp err s : world_wf w ->
  pool_at w (nth 0 accounts 0) s -> st_token_program_id s = TOKEN_PROGRAM_ID ->
  exec e signers w (DepositSingle accounts n mp) = Err err -> deposit_single_fault e signers w s accounts n mp err.
Proof.
  intros W Hp Htp H. unfold exec in H.
  bstep H u Hu. { apply args_err in H. destruct H as [-> H].
    unfold deposit_single_fault. do 9 (destruct accounts as [| ? accounts]; [right; split; [reflexivity | exact H] |]). exact H. }
  bstep H l Hl. { apply anchor_err in H. destruct H as [(L & ->) | (L & N & ->)].
    - unfold deposit_single_fault. do 9 (destruct accounts as [| ? accounts]; [now left |]). cbn [length] in L. lia.
    - unfold deposit_single_fault. do 9 (destruct accounts as [| ? accounts]; [cbn [length] in L; lia |]). exact N. }
  apply anchor_ok in Hl. destruct Hl as (L & Hs & ->).
  destruct accounts as [| pool [| authority [| user [| source [| va [| vb [| mint [| dest [| program rest]]]]]]]]];
    try (cbn [length] in L; lia).
  cbn [nth] in Hp, Hs. cbn [firstn process_deposit_single] in H. unfold deposit_single_fault.
  pose proof Hp as [Hown Hst].
  bstep H s' Hs'. { congruence. } rewrite Hst in Hs'. injection Hs' as <-. rewrite Htp in H.
  bstep H ts Ts. { apply token_err in H. destruct H as [[H ->] | [H ->]].
    - right; right. split; [reflexivity |]. exists source. split; [now left | exact H].
    - exists source. split; [now left | exact H]. }
  bstep H ta Ta. { apply token_err in H. destruct H as [[H ->] | [H ->]].
    - right; right. split; [reflexivity |]. exists va. split; [now right; left | exact H].
    - exists va. split; [now right; left | exact H]. }
  bstep H tb Tb. { apply token_err in H. destruct H as [[H ->] | [H ->]].
    - right; right. split; [reflexivity |]. exists vb. split; [now right; right; left | exact H].
    - exists vb. split; [now right; right; left | exact H]. }
  apply token_ok' in Ts, Ta, Tb.
  bstep H d Hd. { apply direction_err in H. destruct H as (H1 & H2 & ->). right; left. split; [reflexivity |].
    exists ts, ta, tb. repeat (split; [assumption |]). assumption. }
  apply direction_ok in Hd.
  assert (Sd : side_of w source va vb d) by (exists ts, ta, tb; repeat (split; [assumption |]); assumption).
  assert (H' : (do! _ := check_accounts e w s pool authority va vb mint program
                              (match d with AtoB => Some source | BtoA => None end)
                              (match d with AtoB => None | BtoA => Some source end) None in
      do! pool_mint := unpack_mint w mint TOKEN_PROGRAM_ID in
      do! amount :=
        (if 0 <? m_supply pool_mint then
           ok_or (curve_deposit_single (st_curve s) n (t_amount ta)
                                       (t_amount tb) (m_supply pool_mint) d (st_fees s))
                 (ESwap ZeroTradingTokens)
         else Ok (new_pool_supply (st_curve s))) in
      do! p := to_u64 amount in
      do! _ := guard (p <? mp) (ESwap ExceededSlippage) in
      do! _ := guard (p =? 0) (ESwap ZeroTradingTokens) in
      do! w1 := token_transfer e signers w pool program source (facing d va vb) user (st_bump_seed s) n in
      token_mint_to e signers w1 pool program mint dest authority (st_bump_seed s) p) = Err err)
    by (destruct d; exact H).
  clear H. rename H' into H.
  bstep H u' Hc. { apply (check_err _ _ _ _ _ _ _ _ _ _ _ _ _ Hown Htp) in H. destruct H as (err' & -> & H).
    destruct err'; cbn [account_fault] in H; try contradiction; try (left; exact H).
    exists d; split; [exact Sd |]; destruct d; cbn [facing]; destruct H; congruence. }
  apply check_ok' in Hc. destruct Hc as (Hau & -> & -> & -> & ->). rewrite Htp in H |- *.
  bstep H pm Tm. { apply mint_err in H. destruct H as [[H ->] | [H ->]].
    - right; right. split; [reflexivity |]. exists (st_pool_mint s). split; [now right; right; right; left | exact H].
    - exact H. }
  apply mint_ok' in Tm. destruct (mint_u64 _ _ _ W Tm) as [Um Um']. cbv zeta.
  rewrite (supply_zero _ Um) in H. change (new_pool_supply (st_curve s)) with (10 ^ 9) in H.
  assert (Q : forall q, (if m_supply pm =? 0 then Val (10 ^ 9) else
       curve_deposit_single (st_curve s) n (t_amount ta) (t_amount tb) (m_supply pm) d (st_fees s)) = q ->
     side_of w source (st_token_a s) (st_token_b s) d /\
     exists ta tb pm, token_at w (st_token_a s) ta /\ token_at w (st_token_b s) tb /\ mint_at w (st_pool_mint s) pm /\
       (if m_supply pm =? 0 then Val (10 ^ 9) else
       curve_deposit_single (st_curve s) n (t_amount ta) (t_amount tb) (m_supply pm) d (st_fees s)) = q).
  { intros q Hq. split; [exact Sd |]. exists ta, tb, pm. repeat (split; [assumption |]). exact Hq. }
  bstep H p Hr. { apply single_quote_err in H. destruct H as [[H ->] | [H ->]]; apply Q in H; exists d; [now left | exact H]. }
  apply single_quote_ok, Q in Hr. clear Q.
  bstep H p' Hx. { apply u64_err in H. destruct H as [H ->]. exists d, p. split; assumption. }
  apply u64_ok' in Hx. destruct Hx as [-> Hx].
  gstep H G1. { apply Z.ltb_lt in H. exists d, p. split; assumption. }
  gstep H G2. { apply Z.eqb_eq in H. subst p. exists d. now right. }
  apply Z.ltb_ge in G1. apply Z.eqb_neq in G2.
  bstep H w1 W1. { apply (wtransfer_err _ _ _ _ _ _ _ _ _ _ _ Hau) in H. destruct H as [-> H].
    exists d, p. split; [exact Hr |]. split; [exact G1 |]. split; [exact G2 |]. now apply refused_here. }
  apply (wtransfer_ok _ _ _ _ _ _ _ _ _ _ _ Hau) in W1.
  apply (wmint_err _ _ _ _ _ _ _ _ _ _ _ Hau) in H. destruct H as [-> H].
  exists d, p. split; [exact Hr |]. split; [exact G1 |]. split; [exact G2 |]. eapply refused_later; [exact W1 |]. now apply refused_here.
Qed.

Lemma withdraw_single_error e signers w accounts n mp err s : world_wf w ->
  pool_at w (nth 0 accounts 0) s -> st_token_program_id s = TOKEN_PROGRAM_ID ->
  exec e signers w (WithdrawSingle accounts n mp) = Err err -> withdraw_single_fault e signers w s accounts n mp err.
Proof.
  intros W Hp Htp H. unfold exec in H.
  bstep H u Hu. { apply args_err in H. destruct H as [-> H].
    unfold withdraw_single_fault. do 10 (destruct accounts as [| ? accounts]; [right; split; [reflexivity | exact H] |]). exact H. }
  bstep H l Hl. { apply anchor_err in H. destruct H as [(L & ->) | (L & N & ->)].
    - unfold withdraw_single_fault. do 10 (destruct accounts as [| ? accounts]; [now left |]). cbn [length] in L. lia.
    - unfold withdraw_single_fault. do 10 (destruct accounts as [| ? accounts]; [cbn [length] in L; lia |]). exact N. }
  assert (Ua : is_u64 n).
  { apply guard_ok, negb_false_iff in Hu. cbn [instr_args forallb] in Hu. apply andb_true_iff in Hu. now apply u64b_ok. }
  apply anchor_ok in Hl. destruct Hl as (L & Hs & ->).
  destruct accounts as [| pool [| authority [| user [| mint [| source [| va [| vb [| dest [| fee [| program rest]]]]]]]]]];
    try (cbn [length] in L; lia).
  cbn [nth] in Hp, Hs. cbn [firstn process_withdraw_single] in H. unfold withdraw_single_fault.
  destruct (pool_wf _ _ _ W Hp) as (Ws & _). destruct Ws as (_ & _ & _ & _ & _ & _ & _ & _ & Wf & Wc).
  pose proof Hp as [Hown Hst].
  bstep H s' Hs'. { congruence. } rewrite Hst in Hs'. injection Hs' as <-. rewrite Htp in H.
  bstep H td Td. { apply token_err in H. destruct H as [[H ->] | [H ->]].
    - right; right. split; [reflexivity |]. exists dest. split; [now left | exact H].
    - exists dest. split; [now left | exact H]. }
  bstep H ta Ta. { apply token_err in H. destruct H as [[H ->] | [H ->]].
    - right; right. split; [reflexivity |]. exists va. split; [now right; left | exact H].
    - exists va. split; [now right; left | exact H]. }
  bstep H tb Tb. { apply token_err in H. destruct H as [[H ->] | [H ->]].
    - right; right. split; [reflexivity |]. exists vb. split; [now right; right; left | exact H].
    - exists vb. split; [now right; right; left | exact H]. }
  apply token_ok' in Td, Ta, Tb.
  bstep H d Hd. { apply direction_err in H. destruct H as (H1 & H2 & ->). right; left. split; [reflexivity |].
    exists td, ta, tb. repeat (split; [assumption |]). assumption. }
  apply direction_ok in Hd.
  assert (Sd : side_of w dest va vb d) by (exists td, ta, tb; repeat (split; [assumption |]); assumption).
  assert (H' : (do! _ := check_accounts e w s pool authority va vb mint program
                              (match d with AtoB => Some dest | BtoA => None end)
                              (match d with AtoB => None | BtoA => Some dest end) (Some fee) in
      do! pool_mint := unpack_mint w mint TOKEN_PROGRAM_ID in
      do! burn_amount :=
        ok_or (curve_withdraw_single (st_curve s) n (t_amount ta)
                                     (t_amount tb) (m_supply pool_mint) d (st_fees s))
              (ESwap ZeroTradingTokens) in
      do! withdraw_fee :=
        (if fee =? source then Ok 0
         else ok_or (owner_withdraw_fee (st_fees s) burn_amount)
                    (ESwap FeeCalculationFailure)) in
      do! pool_token_amount :=
        ok_or (add_in u128_max burn_amount withdraw_fee) (ESwap CalculationFailure) in
      do! p64 := to_u64 pool_token_amount in
      do! _ := guard (mp <? p64) (ESwap ExceededSlippage) in
      do! _ := guard (pool_token_amount =? 0) (ESwap ZeroTradingTokens) in
      do! w1 :=
        (if 0 <? withdraw_fee then
           do! fee64 := to_u64 withdraw_fee in
           token_transfer e signers w pool program source fee
                          user (st_bump_seed s) fee64
         else Ok w) in
      do! burn64 := to_u64 burn_amount in
      do! w2 := token_burn e signers w1 pool program source mint
                           user (st_bump_seed s) burn64 in
      token_transfer e signers w2 pool program (facing d va vb) dest authority (st_bump_seed s) n) = Err err)
    by (destruct d; exact H).
  clear H. rename H' into H.
  bstep H u' Hc. { apply (check_err _ _ _ _ _ _ _ _ _ _ _ _ _ Hown Htp) in H. destruct H as (err' & -> & H).
    destruct err'; cbn [account_fault] in H; try contradiction; try (left; exact H).
    exists d; split; [exact Sd |]; destruct d; cbn [facing]; destruct H; congruence. }
  assert (Hfee : fee = st_pool_fee_account s).
  { unfold check_accounts in Hc. do 9 (apply rbind_ok in Hc; destruct Hc as (? & _ & Hc)). apply guard_ok in Hc. now apply negb_eq_f. }
  subst fee.
  apply check_ok' in Hc. destruct Hc as (Hau & -> & -> & -> & ->). rewrite Htp in H |- *.
  bstep H pm Tm. { apply mint_err in H. destruct H as [[H ->] | [H ->]].
    - right; right. split; [reflexivity |]. exists (st_pool_mint s). split; [now right; right; right; left | exact H].
    - exact H. }
  apply mint_ok' in Tm. cbv zeta.
  pose proof (mint_u64 _ _ _ W Tm) as Um.
  pose proof (token_u64 _ _ _ W Ta) as Uta. pose proof (token_u64 _ _ _ W Tb) as Utb. unfold is_u64 in *.
  assert (Q : forall q, curve_withdraw_single (st_curve s) n (t_amount ta) (t_amount tb) (m_supply pm) d (st_fees s) = q ->
     side_of w dest (st_token_a s) (st_token_b s) d /\
     exists ta tb pm, token_at w (st_token_a s) ta /\ token_at w (st_token_b s) tb /\ mint_at w (st_pool_mint s) pm /\
       curve_withdraw_single (st_curve s) n (t_amount ta) (t_amount tb) (m_supply pm) d (st_fees s) = q).
  { intros q Hq. split; [exact Sd |]. exists ta, tb, pm. repeat (split; [assumption |]). exact Hq. }
  bstep H p Hr. { apply ok_or_err in H. destruct H as [[H ->] | [H ->]]; apply Q in H; exists d; [now left | now left]. }
  apply ok_or_ok in Hr.
  assert (P0 : 0 <= p) by (eapply withdraw_single_nonneg; [exact Wc | | | | exact Hr]; lia).
  apply Q in Hr. clear Q.
  bstep H x Hx. { apply exit_err in H. destruct H as [[H ->] | [H ->]].
    - exists d, p. split; [exact Hr | exact H].
    - exists d. right. exists p. split; [exact Hr | exact H]. }
  apply exit_ok in Hx.
  bstep H t Ht. { apply ok_or_err in H. destruct H as [[H ->] | [H ->]].
    - exists d, p, x. split; [exact Hr |]. split; [exact Hx |]. unfold add_in in H. destruct (Z.leb_spec (p + x) u128_max); [discriminate | assumption].
    - now apply add_in_no_panic in H. }
  apply ok_or_ok, add_in_val in Ht. destruct Ht as [-> Ht].
  bstep H p' Hx'. { apply u64_err in H. destruct H as [H ->]. exists d, p, x. split; [exact Hr |]. split; [exact Hx | exact H]. }
  apply u64_ok' in Hx'. destruct Hx' as [-> Hx'].
  gstep H G1. { apply Z.ltb_lt in H. exists d, p, x. split; [exact Hr |]. split; [exact Hx | exact H]. }
  gstep H G2. { apply Z.eqb_eq in H. exists d. right. exists p, x. split; [exact Hr |]. split; [exact Hx | exact H]. }
  apply Z.ltb_ge in G1.
  assert (Hx0 : 0 <= x).
  { unfold exit_fee in Hx. destruct (_ =? _); [injection Hx; lia |]. eapply withdraw_fee_bound; [exact Wf | | exact Hx].
    unfold u64_max, u128_max in *. lia. }
  assert (R : err = EToken /\ refused (authority :: signers) w
      (if_any x (CTransfer source (st_pool_fee_account s) user x) ++
       [CBurn source (st_pool_mint s) user p; CTransfer (facing d (st_token_a s) (st_token_b s)) dest authority n])).
  { assert (Ux : x <= u64_max) by lia.
    bstep H w1 W1. { apply (fee_step_err _ _ _ _ _ _ _ _ _ _ _ Hau Ux) in H. destruct H as (-> & X & H).
      split; [reflexivity |]. now apply refused_any. }
    apply (fee_step_ok _ _ _ _ _ _ _ _ _ _ _ Hau Ux) in W1.
    bstep H p64 Hp64. { apply u64_err in H. destruct H as [H _]. lia. }
    apply u64_ok' in Hp64. destruct Hp64 as [-> _].
    bstep H w2 W2. { apply (wburn_err _ _ _ _ _ _ _ _ _ _ _ Hau) in H. destruct H as (-> & H).
      split; [reflexivity |]. eapply refused_app; [exact W1 |]. now apply refused_here. }
    apply (wburn_ok _ _ _ _ _ _ _ _ _ _ _ Hau) in W2.
    apply (wtransfer_err _ _ _ _ _ _ _ _ _ _ _ Hau) in H. destruct H as (-> & H).
    split; [reflexivity |]. eapply refused_app; [exact W1 |]. eapply refused_later; [exact W2 |]. now apply refused_here. }
  destruct R as [-> R]. exists d, p, x. split; [exact Hr |]. split; [exact Hx |]. split; [exact G1 |]. apply Z.eqb_neq in G2.
  split; [exact G2 | exact R].
Qed.
