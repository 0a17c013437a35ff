(** Instructions succeed exactly as specified. *)
From Verif Require Import Ints Tactics Fees LinearCurve SwapCurve Codec Token Processor Api History
  Spec LedgerSpec CallSpec CurveFacts LinearProps CodecFacts TokenFacts ProcFacts AmountFacts EffectFacts CreateFacts CallFacts.

Lemma bind_guard A b e (k : unit -> result A) v : b = false -> k tt = Ok v -> rbind (guard b e) k = Ok v.
Proof. intros -> H. exact H. Qed.
Lemma bind_eq A B (m : result A) a (k : A -> result B) v : m = Ok a -> k a = Ok v -> rbind m k = Ok v.
Proof. intros -> H. exact H. Qed.

Lemma anchor_eq n sg signers accounts : (n <= length accounts)%nat -> In (nth sg accounts 0) signers ->
  anchor_accounts n sg signers accounts = Ok (firstn n accounts).
Proof.
  intros H1 H2. unfold anchor_accounts. apply Nat.ltb_ge in H1. apply mem_In in H2. rewrite H1, H2. reflexivity.
Qed.
Lemma unpack_token_eq w k t : token_at w k t -> unpack_token_account w k TOKEN_PROGRAM_ID = Ok t.
Proof. intros (H1 & H2). unfold unpack_token_account. rewrite H1, H2, Z.eqb_refl. reflexivity. Qed.
Lemma unpack_mint_eq w k t : mint_at w k t -> unpack_mint w k TOKEN_PROGRAM_ID = Ok t.
Proof. intros (H1 & H2). unfold unpack_mint. rewrite H1, H2, Z.eqb_refl. reflexivity. Qed.
Lemma to_u64_eq x : x <= u64_max -> to_u64 x = Ok x.
Proof. intros H. unfold to_u64. apply Z.leb_le in H. now rewrite H. Qed.
Lemma authority_eq e k b a : create_pda e k b = Some a -> authority_id e k b = Ok a.
Proof. intros H. unfold authority_id. now rewrite H. Qed.
Lemma cpi_eq e signers k b a : create_pda e k b = Some a ->
  cpi_signers e signers k b TOKEN_PROGRAM_ID = Ok (a :: signers).
Proof. intros H. unfold cpi_signers. rewrite Z.eqb_refl. cbn [negb guard rbind]. now rewrite H. Qed.
Lemma transfer_eq e signers w k s d a b x w' auth : create_pda e k b = Some auth ->
  call_ok (auth :: signers) w (CTransfer s d a x) w' ->
  token_transfer e signers w k TOKEN_PROGRAM_ID s d a b x = Ok w'.
Proof.
  intros H H'. unfold token_transfer. rewrite (cpi_eq _ _ _ _ _ H). cbn [rbind]. now apply transfer_iff.
Qed.
Lemma mint_eq' e signers w k m d a b x w' auth : create_pda e k b = Some auth ->
  call_ok (auth :: signers) w (CMint m d a x) w' ->
  token_mint_to e signers w k TOKEN_PROGRAM_ID m d a b x = Ok w'.
Proof.
  intros H H'. unfold token_mint_to. rewrite (cpi_eq _ _ _ _ _ H). cbn [rbind]. now apply mint_iff.
Qed.
Lemma burn_eq e signers w k s m a b x w' auth : create_pda e k b = Some auth ->
  call_ok (auth :: signers) w (CBurn s m a x) w' ->
  token_burn e signers w k TOKEN_PROGRAM_ID s m a b x = Ok w'.
Proof.
  intros H H'. unfold token_burn. rewrite (cpi_eq _ _ _ _ _ H). cbn [rbind]. now apply burn_iff.
Qed.
Lemma if_any_transfer e signers w k s d a b x w' auth : create_pda e k b = Some auth ->
  calls_ok (auth :: signers) w (if_any x (CTransfer s d a x)) w' ->
  (if 0 <? x then token_transfer e signers w k TOKEN_PROGRAM_ID s d a b x else Ok w) = Ok w'.
Proof.
  intros H H'. unfold if_any in H'. destruct (0 <? x).
  - destruct H' as (w1 & H' & ->). now apply transfer_eq with auth.
  - cbn [calls_ok] in H'. congruence.
Qed.
Lemma if_any_transfer' e signers w k s d a b x w' auth : create_pda e k b = Some auth -> x <= u64_max ->
  calls_ok (auth :: signers) w (if_any x (CTransfer s d a x)) w' ->
  (if 0 <? x then do! y := to_u64 x in token_transfer e signers w k TOKEN_PROGRAM_ID s d a b y else Ok w) = Ok w'.
Proof.
  intros H U H'. rewrite (to_u64_eq _ U). cbn [rbind]. now apply if_any_transfer with auth.
Qed.
Lemma fee_eq e signers w s k mint fee x w' auth : create_pda e k (st_bump_seed s) = Some auth -> x <= u64_max ->
  calls_ok (auth :: signers) w (if_any x (CMint mint fee auth x)) w' ->
  mint_owner_fee e signers w s k auth mint fee TOKEN_PROGRAM_ID [] x = Ok w'.
Proof.
  intros H U H'. unfold mint_owner_fee, if_any in *. destruct (0 <? x).
  - destruct H' as (w1 & H' & ->). cbn [rbind]. rewrite (to_u64_eq _ U). cbn [rbind]. now apply mint_eq' with auth.
  - cbn [calls_ok] in H'. congruence.
Qed.

Lemma check_eq e w s k au ua ub fee :
  a_owner (w k) = PROGRAM_ID -> create_pda e k (st_bump_seed s) = Some au ->
  st_token_program_id s = TOKEN_PROGRAM_ID ->
  ua <> Some (st_token_a s) -> ub <> Some (st_token_b s) ->
  match fee with Some f => f = st_pool_fee_account s | None => True end ->
  check_accounts e w s k au (st_token_a s) (st_token_b s) (st_pool_mint s) TOKEN_PROGRAM_ID ua ub fee = Ok tt.
Proof.
  intros H1 H2 H3 H4 H5 H6. unfold check_accounts. rewrite H1, (authority_eq _ _ _ _ H2), H3.
  assert (U : forall o x, o <> Some x -> optZ_eqb o x = false).
  { intros o x N. apply not_true_is_false. intros Q. apply N. now apply optZ_eqb_iff. }
  rewrite (U _ _ H4), (U _ _ H5).
  cbn [rbind guard]. rewrite !Z.eqb_refl. cbn [negb rbind guard].
  destruct fee; [| reflexivity]. subst. rewrite Z.eqb_refl. reflexivity.
Qed.

Lemma u64s l : Forall is_u64 l -> negb (forallb u64b l) = false.
Proof.
  intros H. apply negb_false_iff, forallb_forall. intros x Hx. apply u64b_ok.
  rewrite Forall_forall in H. auto.
Qed.

Ltac gd := apply bind_guard; [ | ]; cbv beta.
Ltac gd_with t := apply bind_guard; [solve [t] | ]; cbv beta.
Ltac bd H := eapply bind_eq; [exact H |]; cbv beta iota.
Ltac neq := idtac; match goal with
  | |- (?a =? ?b) = false => apply Z.eqb_neq; first [assumption | apply not_eq_sym; assumption]
  end.

Lemma swap_exact e signers w accounts ain mout w' :
  exec e signers w (Swap accounts ain mout) = Ok w' <-> swap_spec e signers w accounts ain mout w'.
Proof.
  split.
  - intros H. apply swap_trace in H.
    destruct H as (pool & authority & user & source & ssrc & sdst & dest & mint & fee & tp & rest & s & ta & tb & pm
      & r & pt & Hacc & U1 & U2 & Hs & Hp & Hpda & S1 & S2 & N1 & N2 & N3 & -> & -> & -> & Htp & T1 & T2 & T3
      & Hq & B1 & B2 & Hf & B3 & Hr).
    rewrite Htp in Hacc.
    exists pool, authority, user, source, ssrc, sdst, dest, rest, s, ta, tb, pm, r, pt.
    split; [exact Hacc |]. do 3 (split; [assumption |]). split; [exact Hp |]. split; [exact Htp |].
    split; [exact Hpda |]. split; [destruct S1, S2; subst; try contradiction; auto |].
    split; [exact N1 |]. split; [congruence |]. split; [congruence |]. do 3 (split; [assumption |]).
    cbv zeta. split; [exact Hq |]. split; [exact B1 |]. split; [exact B2 |]. split; [exact Hf |].
    split; [unfold u64_max in *; lia |].
    apply calls_iff. cbn [map op_of]. rewrite map_app. cbn [map op_of]. unfold if_any, swap_ops in *.
    destruct (0 <? pt); exact Hr.
  - intros (pool & authority & user & source & ssrc & sdst & dest & rest & s & ta & tb & pm & r & pt & -> & U1 & U2
      & Hs & Hp & Htp & Hpda & Hv & N1 & N2 & N3 & T1 & T2 & T3 & Hq & B1 & B2 & Hf & B3 & Hc).
    cbv zeta in Hq, Hf. destruct Hp as [Hown Hst].
    destruct Hc as (w1 & C1 & Hc). apply calls_app in Hc. destruct Hc as (w2 & C2 & (w3 & C3 & ->)).
    unfold exec. gd_with ltac:(apply u64s; cbn [instr_args]; auto).
    eapply bind_eq. { apply anchor_eq; [cbn [length]; lia |]. exact Hs. }
    cbn [firstn process_swap]. rewrite Hown. gd_with ltac:(reflexivity).
    bd Hst. bd (authority_eq _ _ _ _ Hpda). rewrite Htp.
    gd_with ltac:(rewrite Z.eqb_refl; reflexivity).
    gd_with ltac:(destruct Hv as [(-> & _) | (-> & _)]; rewrite Z.eqb_refl, ?orb_true_r; reflexivity).
    gd_with ltac:(destruct Hv as [(_ & ->) | (_ & ->)]; rewrite Z.eqb_refl, ?orb_true_r; reflexivity).
    do 3 (gd; [neq |]).
    do 3 (gd_with ltac:(rewrite Z.eqb_refl; reflexivity)).
    bd (unpack_token_eq _ _ _ T1). bd (unpack_token_eq _ _ _ T2). bd (unpack_mint_eq _ _ _ T3).
    cbv zeta. eapply bind_eq. { rewrite Hq. reflexivity. } cbv beta.
    gd_with ltac:(apply Z.ltb_ge; tauto).
    assert (E : forall X (k : Z -> Z -> X) d, (let (a, b) := match d with
        | AtoB => (new_swap_source_amount r, new_swap_destination_amount r)
        | BtoA => (new_swap_destination_amount r, new_swap_source_amount r) end in k a b)
        = k (side_a d (new_swap_source_amount r) (new_swap_destination_amount r))
            (side_b d (new_swap_source_amount r) (new_swap_destination_amount r))) by (intros X k []; reflexivity).
    rewrite E. clear E.
    bd (to_u64_eq _ B2). bd (transfer_eq _ _ _ _ _ _ _ _ _ _ _ Hpda C1).
    eapply bind_eq. { rewrite Hf. reflexivity. } cbv beta.
    bd (fee_eq _ _ _ _ _ _ _ _ _ _ Hpda B3 C2). bd (to_u64_eq _ (proj2 B1)).
    exact (transfer_eq _ _ _ _ _ _ _ _ _ _ _ Hpda C3).
Qed.

Lemma takes_deposits_iff c : allows_deposits c = true <-> takes_deposits c.
Proof. destruct c; cbn; split; intros; try exact I; try discriminate; try contradiction; reflexivity. Qed.

Lemma supply_zero pm : 0 <= m_supply pm -> (0 <? m_supply pm) = negb (m_supply pm =? 0).
Proof. intros H. destruct (Z.ltb_spec 0 (m_supply pm)), (Z.eqb_spec (m_supply pm) 0); try lia; reflexivity. Qed.

Lemma deposit_all_exact e signers w accounts n ma mb w' : world_wf w ->
  exec e signers w (DepositAll accounts n ma mb) = Ok w' <-> deposit_all_spec e signers w accounts n ma mb w'.
Proof.
  intros W. split.
  - intros H. apply deposit_all_trace in H.
    destruct H as (pool & authority & user & sa & sb & ka & kb & mint & dest & tp & rest & s & ta & tb & pm & a & b
      & Hacc & U1 & U2 & U3 & Hs & Hp & Hpda & -> & -> & -> & -> & Htp & N1 & N2 & Hal & T1 & T2 & T3 & H).
    rewrite Htp in Hacc. destruct (mint_u64 _ _ _ W T3) as [Um _].
    exists pool, authority, user, sa, sb, dest, rest, s, ta, tb, pm, a, b.
    split; [exact Hacc |]. do 4 (split; [assumption |]). split; [exact Hp |]. split; [exact Htp |].
    split; [exact Hpda |]. split; [exact N1 |]. split; [exact N2 |]. split; [now apply takes_deposits_iff |].
    do 3 (split; [assumption |]). unfold deposit_terms in H. rewrite (supply_zero _ Um) in H.
    change (new_pool_supply (st_curve s)) with (10 ^ 9) in H.
    destruct (m_supply pm =? 0); cbn [negb] in H; destruct H as (Hq & B1 & B2 & Z1 & Z2 & _ & Hr);
      (split; [exact Hq |]); do 4 (split; [assumption |]); apply calls_iff; exact Hr.
  - intros (pool & authority & user & sa & sb & dest & rest & s & ta & tb & pm & a & b & -> & U1 & U2 & U3
      & Hs & Hp & Htp & Hpda & N1 & N2 & Hal & T1 & T2 & T3 & H).
    destruct Hp as [Hown Hst]. destruct (mint_u64 _ _ _ W T3) as [Um _]. apply takes_deposits_iff in Hal.
    unfold exec. gd_with ltac:(apply u64s; cbn [instr_args]; auto).
    eapply bind_eq. { apply anchor_eq; [cbn [length]; lia |]. exact Hs. }
    cbn [firstn process_deposit_all]. bd Hst. gd_with ltac:(rewrite Hal; reflexivity).
    eapply bind_eq. { apply check_eq; auto; congruence. } cbv beta. rewrite Htp.
    bd (unpack_token_eq _ _ _ T1). bd (unpack_token_eq _ _ _ T2). bd (unpack_mint_eq _ _ _ T3).
    rewrite (supply_zero _ Um). change (new_pool_supply (st_curve s)) with (10 ^ 9).
    destruct (m_supply pm =? 0); cbn [negb]; destruct H as (Hq & B1 & B2 & Z1 & Z2 & Hc);
    destruct Hc as (w1 & C1 & w2 & C2 & w3 & C3 & ->);
    (eapply bind_eq; [rewrite Hq; reflexivity |]; cbv beta iota);
    unfold is_u64 in *;
    (eapply bind_eq; [apply to_u64_eq; lia |]; cbv beta);
    gd_with ltac:(apply Z.ltb_ge; assumption); (gd; [neq |]);
    (eapply bind_eq; [apply to_u64_eq; lia |]; cbv beta);
    gd_with ltac:(apply Z.ltb_ge; assumption); (gd; [neq |]);
    (eapply bind_eq; [apply to_u64_eq; unfold u64_max in *; lia |]; cbv beta);
    bd (transfer_eq _ _ _ _ _ _ _ _ _ _ _ Hpda C1); bd (transfer_eq _ _ _ _ _ _ _ _ _ _ _ Hpda C2);
    exact (mint_eq' _ _ _ _ _ _ _ _ _ _ _ Hpda C3).
Qed.

Lemma fee_charge (fee source charge : Z) m :
  fee = source /\ charge = 0 \/ fee <> source /\ m = Val charge ->
  (if fee =? source then Ok 0 else ok_or m (ESwap FeeCalculationFailure)) = Ok charge.
Proof.
  intros [(-> & ->) | (N & ->)]; [now rewrite Z.eqb_refl |]. apply Z.eqb_neq in N. rewrite N. reflexivity.
Qed.
Lemma zero_guard_eq a t : (a = 0 -> t = 0) -> (a =? 0) && negb (t =? 0) = false.
Proof.
  intros H. destruct (Z.eqb_spec a 0) as [E | E]; [| reflexivity]. rewrite (H E). reflexivity.
Qed.

Lemma withdraw_all_exact e signers w accounts n ma mb w' : world_wf w ->
  exec e signers w (WithdrawAll accounts n ma mb) = Ok w' <-> withdraw_all_spec e signers w accounts n ma mb w'.
Proof.
  intros W. split.
  - intros H. apply withdraw_all_trace in H.
    destruct H as (pool & authority & user & mint & source & ka & kb & da & db & fee & tp & rest & s & ta & tb & pm
      & wf & ra & rb & Hacc & U1 & U2 & U3 & Hs & Hp & Hpda & -> & -> & -> & -> & -> & Htp & N1 & N2 & T1 & T2 & T3
      & Hf & B1 & _ & _ & Hq & B2 & B3 & H).
    rewrite Htp in Hacc.
    exists pool, authority, user, source, da, db, rest, s, ta, tb, pm, wf, ra, rb.
    split; [exact Hacc |]. do 4 (split; [assumption |]). split; [exact Hp |]. split; [exact Htp |].
    split; [exact Hpda |]. split; [exact N1 |]. split; [exact N2 |]. do 3 (split; [assumption |]).
    split; [exact Hf |]. split; [exact B1 |]. split; [exact Hq |]. split; [exact B2 |]. split; [exact B3 |].
    cbv zeta in *. destruct H as (L1 & L2 & Z1 & Z2 & Hr). do 4 (split; [assumption |]).
    apply calls_iff. rewrite !map_app. unfold if_any, when in *.
    destruct (0 <? wf), (0 <? Z.min (t_amount ta) ra), (0 <? Z.min (t_amount tb) rb); exact Hr.
  - intros (pool & authority & user & source & da & db & rest & s & ta & tb & pm & wf & ra & rb & -> & U1 & U2 & U3
      & Hs & Hp & Htp & Hpda & N1 & N2 & T1 & T2 & T3 & Hf & B1 & Hq & B2 & B3 & H).
    cbv zeta in H. destruct H as (L1 & L2 & Z1 & Z2 & Hc).
    apply calls_app in Hc. destruct Hc as (w1 & C1 & Hc). apply calls_app in Hc. destruct Hc as (w2 & C2 & Hc).
    apply calls_app in Hc. destruct Hc as (w3 & C3 & C4). destruct C2 as (w2' & C2 & ->).
    destruct (pool_wf _ _ _ W Hp) as (Ws & _). destruct Ws as (_ & _ & _ & _ & _ & _ & _ & _ & Wf & _).
    unfold is_u64 in *.
    assert (W0 : 0 <= wf).
    { destruct Hf as [(_ & ->) | (_ & Hf)]; [lia |]. eapply withdraw_fee_bound; [exact Wf | | exact Hf]; lia. }
    destruct Hp as [Hown Hst].
    unfold exec. gd_with ltac:(apply u64s; cbn [instr_args]; unfold is_u64; auto).
    eapply bind_eq. { apply anchor_eq; [cbn [length]; lia |]. exact Hs. }
    cbn [firstn process_withdraw_all]. bd Hst.
    eapply bind_eq. { apply check_eq; auto; congruence. } cbv beta. rewrite Htp.
    bd (unpack_token_eq _ _ _ T1). bd (unpack_token_eq _ _ _ T2). bd (unpack_mint_eq _ _ _ T3).
    bd (fee_charge _ _ _ _ Hf).
    eapply bind_eq; [rewrite (csub_eq _ _ B1); reflexivity |]; cbv beta.
    eapply bind_eq; [rewrite Hq; reflexivity |]; cbv beta iota.
    bd (to_u64_eq _ B2). cbv zeta.
    gd_with ltac:(apply Z.ltb_ge; assumption). gd_with ltac:(apply zero_guard_eq; assumption).
    bd (to_u64_eq _ B3).
    gd_with ltac:(apply Z.ltb_ge; assumption). gd_with ltac:(apply zero_guard_eq; assumption).
    eapply bind_eq; [apply if_any_transfer' with authority; [exact Hpda | lia | exact C1] |]; cbv beta.
    eapply bind_eq; [apply to_u64_eq; lia |]; cbv beta.
    bd (burn_eq _ _ _ _ _ _ _ _ _ _ _ Hpda C2).
    eapply bind_eq; [apply if_any_transfer with authority; [exact Hpda | exact C3] |]; cbv beta.
    apply if_any_transfer with authority; [exact Hpda | exact C4].
Qed.

Lemma direction_eq A mint ma mb d (k : trade_direction -> result A) : picks mint ma mb d ->
  (do! d' := (if mint =? ma then Ok AtoB else if mint =? mb then Ok BtoA else Err (ESwap IncorrectSwapAccount)) in k d')
  = k d.
Proof.
  unfold picks. destruct d.
  - intros ->. now rewrite Z.eqb_refl.
  - intros (-> & N). apply Z.eqb_neq in N. now rewrite N, Z.eqb_refl.
Qed.

Lemma first_quote (b : bool) (m : outcome Z) (np p : Z) : (if b then Val np else m) = Val p ->
  (if negb b then ok_or m (ESwap ZeroTradingTokens) else Ok np) = Ok p.
Proof. destruct b; cbn [negb]; [congruence | now intros ->]. Qed.

Lemma deposit_single_exact e signers w accounts n mp w' : world_wf w ->
  exec e signers w (DepositSingle accounts n mp) = Ok w' <-> deposit_single_spec e signers w accounts n mp w'.
Proof.
  intros W. split.
  - intros H. apply deposit_single_trace in H.
    destruct H as (pool & authority & user & source & ka & kb & mint & dest & tp & rest & s & ts & ta & tb & pm & d & p
      & Hacc & U1 & U2 & Hs & Hp & Hpda & -> & -> & -> & -> & Htp & T0 & T1 & T2 & T3 & Hd & N & Hq & B & Z1 & Hr).
    rewrite Htp in Hacc. destruct (mint_u64 _ _ _ W T3) as [Um _].
    exists pool, authority, user, source, dest, rest, s, ts, ta, tb, pm, d, p.
    split; [exact Hacc |]. do 3 (split; [assumption |]). split; [exact Hp |]. split; [exact Htp |].
    split; [exact Hpda |]. do 4 (split; [assumption |]). split; [destruct d; exact Hd |].
    split; [destruct d; exact N |].
    split. { destruct Hq as [(L & Hq) | (L & ->)].
      - destruct (Z.eqb_spec (m_supply pm) 0); [lia | exact Hq].
      - destruct (Z.eqb_spec (m_supply pm) 0); [reflexivity | lia]. }
    split; [exact B |]. split; [exact Z1 |]. apply calls_iff. destruct d; exact Hr.
  - intros (pool & authority & user & source & dest & rest & s & ts & ta & tb & pm & d & p & -> & U1 & U2
      & Hs & Hp & Htp & Hpda & T0 & T1 & T2 & T3 & Hd & N & Hq & B & Z1 & Hc).
    destruct Hp as [Hown Hst]. destruct (mint_u64 _ _ _ W T3) as [Um _].
    destruct Hc as (w1 & C1 & w2 & C2 & ->).
    unfold exec. gd_with ltac:(apply u64s; cbn [instr_args]; auto).
    eapply bind_eq. { apply anchor_eq; [cbn [length]; lia |]. exact Hs. }
    cbn [firstn process_deposit_single]. bd Hst. rewrite Htp.
    bd (unpack_token_eq _ _ _ T0). bd (unpack_token_eq _ _ _ T1). bd (unpack_token_eq _ _ _ T2).
    rewrite (direction_eq _ _ _ _ _ _ Hd).
    destruct d; cbn [side_vault] in *; cbv beta iota;
    (eapply bind_eq; [apply check_eq; auto; congruence |]; cbv beta);
    bd (unpack_mint_eq _ _ _ T3); rewrite (supply_zero _ Um);
    (eapply bind_eq; [exact (first_quote _ _ _ _ Hq) |]; cbv beta);
    bd (to_u64_eq _ (proj2 B)); gd_with ltac:(apply Z.ltb_ge; tauto); (gd; [neq |]);
    bd (transfer_eq _ _ _ _ _ _ _ _ _ _ _ Hpda C1);
    exact (mint_eq' _ _ _ _ _ _ _ _ _ _ _ Hpda C2).
Qed.

Lemma withdraw_single_exact e signers w accounts n mp w' : world_wf w ->
  exec e signers w (WithdrawSingle accounts n mp) = Ok w' <-> withdraw_single_spec e signers w accounts n mp w'.
Proof.
  intros W. split.
  - intros H. apply withdraw_single_trace in H.
    destruct H as (pool & authority & user & mint & source & ka & kb & dest & fee & tp & rest & s & td & ta & tb & pm & d
      & p & wf & Hacc & U1 & U2 & Hs & Hp & Hpda & -> & -> & -> & -> & -> & Htp & T0 & T1 & T2 & T3 & Hd & N & Hq & Hf
      & B & Z1 & _ & _ & Hr).
    rewrite Htp in Hacc.
    exists pool, authority, user, source, dest, rest, s, td, ta, tb, pm, d, p, wf.
    split; [exact Hacc |]. do 3 (split; [assumption |]). split; [exact Hp |]. split; [exact Htp |].
    split; [exact Hpda |]. do 4 (split; [assumption |]). split; [destruct d; exact Hd |].
    split; [destruct d; exact N |]. split; [exact Hq |]. split; [exact Hf |].
    split; [exact B |]. split; [exact Z1 |]. apply calls_iff. rewrite map_app. unfold if_any, when in *.
    destruct d, (0 <? wf); exact Hr.
  - intros (pool & authority & user & source & dest & rest & s & td & ta & tb & pm & d & p & wf & -> & U1 & U2
      & Hs & Hp & Htp & Hpda & T0 & T1 & T2 & T3 & Hd & N & Hq & Hf & B & Z1 & Hc).
    apply calls_app in Hc. destruct Hc as (w1 & C1 & w2 & C2 & w3 & C3 & ->).
    pose proof (mint_u64 _ _ _ W T3) as Um.
    pose proof (token_u64 _ _ _ W T1) as Ua. pose proof (token_u64 _ _ _ W T2) as Ub. unfold is_u64 in *.
    destruct (pool_wf _ _ _ W Hp) as (Ws & _). destruct Ws as (_ & _ & _ & _ & _ & _ & _ & _ & Wf & Wc).
    assert (P0 : 0 <= p) by (eapply withdraw_single_nonneg; [exact Wc | | | | exact Hq]; lia).
    assert (W0 : 0 <= wf).
    { destruct Hf as [(_ & ->) | (_ & Hf)]; [lia |]. eapply withdraw_fee_bound; [exact Wf | | exact Hf]; lia. }
    destruct Hp as [Hown Hst].
    unfold exec. gd_with ltac:(apply u64s; cbn [instr_args]; unfold is_u64; auto).
    eapply bind_eq. { apply anchor_eq; [cbn [length]; lia |]. exact Hs. }
    cbn [firstn process_withdraw_single]. bd Hst. rewrite Htp.
    bd (unpack_token_eq _ _ _ T0). bd (unpack_token_eq _ _ _ T1). bd (unpack_token_eq _ _ _ T2).
    rewrite (direction_eq _ _ _ _ _ _ Hd).
    destruct d; cbn [side_vault] in *; cbv beta iota;
    (eapply bind_eq; [apply check_eq; auto; congruence |]; cbv beta);
    bd (unpack_mint_eq _ _ _ T3);
    (eapply bind_eq; [rewrite Hq; reflexivity |]; cbv beta);
    bd (fee_charge _ _ _ _ Hf);
    (eapply bind_eq; [rewrite add_in_eq; [reflexivity | unfold u64_max, u128_max in *; lia] |]; cbv beta);
    (eapply bind_eq; [apply to_u64_eq; lia |]; cbv beta);
    gd_with ltac:(apply Z.ltb_ge; assumption); (gd; [neq |]);
    (eapply bind_eq; [apply if_any_transfer' with authority; [exact Hpda | lia | exact C1] |]; cbv beta);
    (eapply bind_eq; [apply to_u64_eq; lia |]; cbv beta);
    bd (burn_eq _ _ _ _ _ _ _ _ _ _ _ Hpda C2);
    exact (transfer_eq _ _ _ _ _ _ _ _ _ _ _ Hpda C3).
Qed.

Lemma proper_iff num den : 0 <= num -> 0 <= den ->
  (validate_fraction num den = Ok tt <-> proper_fraction num den).
Proof.
  intros H1 H2. unfold validate_fraction, proper_fraction.
  destruct (Z.eqb_spec den 0), (Z.eqb_spec num 0), (Z.leb_spec den num); cbn [andb]; split; intros H';
    try reflexivity; try discriminate; lia.
Qed.

Lemma fees_iff f : fees_wf f -> (fees_validate f = Ok tt <->
  proper_fraction (trade_fee_num f) (trade_fee_den f) /\
  proper_fraction (owner_trade_fee_num f) (owner_trade_fee_den f) /\
  proper_fraction (owner_withdraw_fee_num f) (owner_withdraw_fee_den f) /\
  proper_fraction (host_fee_num f) (host_fee_den f)).
Proof.
  intros (A & B & C & D & E & F & G & H). unfold is_u64 in *.
  rewrite <- !proper_iff by lia. unfold fees_validate. split.
  - intros Q. inv. repeat match goal with u : unit |- _ => destruct u end. auto.
  - intros (-> & -> & -> & ->). reflexivity.
Qed.

Lemma create_exact e signers w i : env_ok e -> world_wf w -> creates i ->
  (exists w', exec e signers w i = Ok w') <-> create_spec e signers w i.
Proof.
  intros He W Hc. split.
  - intros (w' & H). pose proof (create_once _ _ _ _ _ Hc H) as Once.
    destruct (create_inv _ _ _ _ _ Hc H)
      as (pool & authority & ka & kb & mint & fee & dest & tp & rest & f & c & Hacc & Hreq & Hf & Hcw & Hsig & Hi).
    unfold named_pool in Once. rewrite Hacc in Once. cbn [nth] in Once.
    apply initialize_trace in Hi.
    destruct Hi as (bump & ta & tb & tf & td & pm & w1 & bytes & Hun & Hfind & _ & -> & Hta & Htb & Htf & Htd & Hpm &
      O1 & O2 & O3 & O4 & Au & Nm & Vs & D1 & D2 & C1 & C2 & S0 & Fz & Mf & Cs & Fv & Cv & (auth' & Hpda & Hrun) & Ow & Hpack & _).
    destruct He as (He1 & He2). destruct (He1 _ _ _ Hfind) as (Hcr & Hb).
    assert (auth' = authority) by congruence. subst auth'.
    apply swap_pack_length in Hpack. destruct Hpack as [L1 _].
    apply (fees_iff f Hf) in Fv. destruct Fv as (F1 & F2 & F3 & F4).
    exists pool, authority, ka, kb, mint, fee, dest, rest, f, c, bump, ta, tb, tf, td, pm, w1.
    split; [exact Hacc |]. do 4 (split; [assumption |]). do 4 (split; [assumption |]).
    do 5 (split; [assumption |]). do 3 (split; [assumption |]). do 4 (split; [assumption |]).
    do 3 (split; [assumption |]). do 3 (split; [assumption |]). split; [exact Cs |]. do 4 (split; [assumption |]).
    split; [| now apply calls_iff].
    assert (Hk : match c with ConstantPrice _ | LinearPrice _ => True | _ => False end).
    { destruct i; try contradiction; cbn [requested] in Hreq; injection Hreq as _ <-; exact I. }
    destruct c; try contradiction; cbn [curve_validate curve_validate_supply] in Cv, Vs.
    + unfold ConstantPrice.cprice_validate, ConstantPrice.cprice_validate_supply in *. inv. bools. auto.
    + apply linear_validate_iff in Cv; [| exact Hcw]. destruct Cv as (V1 & V2 & V3 & V4).
      unfold linear_validate_supply in Vs. inv. bools. auto 10.
  - intros (pool & authority & ka & kb & mint & fee & dest & rest & f & c & bump & ta & tb & tf & td & pm & w1 & Hacc & Hreq
      & Hf & Hcw & Hsig & Ow & Once & Len & Hfind & Hta & Htb & Htf & Htd & Hpm & O1 & O2 & Nm & D1 & D2 & C1 & C2
      & S0 & Au & Fz & Mf & O3 & O4 & Cs & F1 & F2 & F3 & F4 & Cv & Hcall).
    destruct He as (He1 & He2). destruct (He1 _ _ _ Hfind) as (Hcr & Hb).
    assert (Hun : swap_is_initialized (raw_of (a_data (w pool))) = false).
    { unfold swap_is_initialized. destruct (swap_unpack _) as [s |] eqn:E; [| reflexivity].
      exfalso. exact (Once s (conj Ow E)). }
    assert (Fv : fees_validate f = Ok tt) by (apply fees_iff; auto).
    assert (Vs : curve_validate_supply c (t_amount ta) (t_amount tb) = Ok tt).
    { destruct c; try contradiction; cbn [curve_validate_supply].
      - destruct Cv as [_ Cv]. unfold ConstantPrice.cprice_validate_supply. apply Z.eqb_neq in Cv. now rewrite Cv.
      - destruct Cv as (_ & _ & _ & _ & Ca & Cb). unfold linear_validate_supply.
        apply Z.eqb_neq in Cb. now rewrite Ca, Cb. }
    assert (Cv' : curve_validate c = Ok tt).
    { destruct c; try contradiction; cbn [curve_validate].
      - destruct Cv as [Cv _]. unfold ConstantPrice.cprice_validate. apply Z.eqb_neq in Cv. now rewrite Cv.
      - apply linear_validate_iff; [exact Hcw | tauto]. }
    destruct Hcall as (w1' & Hcall & ->).
    assert (Hw1 : w1' pool = w pool).
    { destruct Hcall as (mt & td' & M & T & _ & _ & _ & _ & _ & _ & _ & ->). unfold with2.
      assert (PROGRAM_ID <> TOKEN_PROGRAM_ID) by discriminate.
      destruct (Z.eqb_spec pool mint) as [-> |]; [destruct M as [M _]; congruence |].
      destruct (Z.eqb_spec pool dest) as [-> |]; [destruct T as [T _]; congruence | reflexivity]. }
    set (st := mk_swap_state true bump TOKEN_PROGRAM_ID ka kb mint (t_mint ta) (t_mint tb) fee f c).
    destruct (raw_of (a_data (w pool))) as [| v raw] eqn:Er; [discriminate Len |].
    cbn [length] in Len. injection Len as Len.
    assert (Hpack : swap_pack st (v :: raw) = Ok (1 :: pack_v1_into st raw)).
    { unfold swap_pack. rewrite Len. reflexivity. }
    assert (P : process_initialize e signers w f c [pool; authority; ka; kb; mint; fee; dest; TOKEN_PROGRAM_ID]
                = Ok (upd w1' pool (mk_account PROGRAM_ID (DRaw (1 :: pack_v1_into st raw))))).
    { cbn [process_initialize]. rewrite Er. gd; [exact Hun |].
      eapply bind_eq; [rewrite Hfind; reflexivity |]; cbv beta iota.
      gd_with ltac:(rewrite Z.eqb_refl; reflexivity).
      bd (unpack_token_eq _ _ _ Hta). bd (unpack_token_eq _ _ _ Htb). bd (unpack_token_eq _ _ _ Htf).
      bd (unpack_token_eq _ _ _ Htd). bd (unpack_mint_eq _ _ _ Hpm).
      gd_with ltac:(rewrite O1, Z.eqb_refl; reflexivity).
      gd_with ltac:(rewrite O2, Z.eqb_refl; reflexivity).
      gd; [apply Z.eqb_neq, not_eq_sym; assumption |]. gd; [apply Z.eqb_neq, not_eq_sym; assumption |].
      gd_with ltac:(rewrite Au; cbn [optZ_eqb]; rewrite Z.eqb_refl; reflexivity).
      gd; [apply Z.eqb_neq; assumption |]. bd Vs.
      gd_with ltac:(rewrite D1; reflexivity). gd_with ltac:(rewrite D2; reflexivity).
      gd_with ltac:(rewrite C1; reflexivity). gd_with ltac:(rewrite C2; reflexivity).
      gd_with ltac:(rewrite S0; reflexivity). gd_with ltac:(rewrite Fz; reflexivity).
      gd_with ltac:(rewrite Mf, Z.eqb_refl; reflexivity).
      eapply bind_eq.
      { instantiate (1 := tt). unfold constraints_ok in Cs. destruct (constraints e) as [sc |]; [| reflexivity].
        destruct Cs as (K1 & K2 & K3 & K4 & K5 & K6 & K7 & K8 & K9 & K10). rewrite K1. cbn [rbind].
        rewrite Z.eqb_refl. cbn [negb guard rbind]. unfold validate_curve_type, constraints_validate_fees.
        apply mem_In in K2. rewrite K2. cbn [rbind]. apply Z.leb_le in K3, K5, K7.
        rewrite K3, K5, K7, K4, K6, K8, K9, K10, !Z.eqb_refl. reflexivity. }
      cbv beta. bd Fv. bd Cv'.
      eapply bind_eq; [apply to_u64_eq; change (new_pool_supply c) with (10 ^ 9); unfold u64_max; lia |]; cbv beta.
      eapply bind_eq; [apply mint_eq' with authority; [exact Hcr | exact Hcall] |]; cbv beta.
      rewrite Hw1, Er. bd Hpack. gd; [rewrite Ow; reflexivity |]. reflexivity. }
    eexists. destruct i; try contradiction; cbn [instr_accounts requested] in Hacc, Hreq; injection Hreq as <- <-; subst accounts.
    + unfold exec. gd. { apply u64s. cbn [instr_args]. destruct Hf as (? & ? & ? & ? & ? & ? & ? & ?). repeat (apply Forall_cons; [assumption |]); apply Forall_nil. }
      eapply bind_eq. { apply anchor_eq; [cbn [length]; lia |]. exact Hsig. }
      cbn [firstn]. exact P.
    + unfold exec. gd. { apply u64s. cbn [instr_args]. destruct Hcw as (? & ? & ? & ?). repeat (apply Forall_cons; [assumption |]); apply Forall_nil. }
      eapply bind_eq. { apply anchor_eq; [cbn [length]; lia |]. exact Hsig. }
      cbn [firstn]. exact P.
Qed.
