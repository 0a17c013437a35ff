(** The errors of the creation instructions. *)
From Verif Require Import Ints Tactics Fees LinearCurve SwapCurve Codec Token Processor Api History
  Spec LedgerSpec CallSpec ErrorSpec CurveFacts LinearProps CodecFacts TokenFacts ProcFacts AmountFacts EffectFacts CreateFacts CallFacts ExactFacts
  QuoteSpec QuoteFacts QuoteCurves ErrorFacts ErrorProps ErrorCodes HistoryFacts.

Lemma token_ok2 w k p t : unpack_token_account w k p = Ok t -> a_owner (w k) = p /\ a_data (w k) = DToken t.
Proof.
  unfold unpack_token_account. destruct (Z.eqb_spec (a_owner (w k)) p); cbn [negb]; [| discriminate].
  destruct (a_data (w k)); intros H; try discriminate. split; [assumption | congruence].
Qed.
Lemma mint_ok2 w k p t : unpack_mint w k p = Ok t -> a_owner (w k) = p /\ a_data (w k) = DMint t.
Proof.
  unfold unpack_mint. destruct (Z.eqb_spec (a_owner (w k)) p); cbn [negb]; [| discriminate].
  destruct (a_data (w k)); intros H; try discriminate. split; [assumption | congruence].
Qed.
Lemma fees_err f err : fees_wf f -> fees_validate f = Err err -> err = ESwap InvalidFee /\
  ~ (proper_fraction (trade_fee_num f) (trade_fee_den f) /\
     proper_fraction (owner_trade_fee_num f) (owner_trade_fee_den f) /\
     proper_fraction (owner_withdraw_fee_num f) (owner_withdraw_fee_den f) /\
     proper_fraction (host_fee_num f) (host_fee_den f)).
Proof.
  intros Wf H. split.
  - unfold fees_validate in H.
    assert (V : forall n d, validate_fraction n d = Err err -> err = ESwap InvalidFee).
    { intros n d. unfold validate_fraction. destruct (_ && _); [discriminate |]. destruct (_ <=? _); congruence. }
    do 3 (apply bind_err in H; destruct H as [H | (? & _ & H)]; [exact (V _ _ H) |]). exact (V _ _ H).
  - rewrite <- (fees_iff f Wf). congruence.
Qed.
Lemma constraint_fees_err e sc f c owner err : constraints e = Some sc -> constraints_validate_fees sc f = Err err ->
  err = ESwap InvalidFee /\ ~ constraints_ok e f c owner.
Proof.
  intros Hsc H. unfold constraints_ok. rewrite Hsc. unfold constraints_validate_fees in H. cbv zeta in H |- *.
  match type of H with (if ?b then _ else _) = _ => destruct b eqn:E end; [discriminate |].
  split; [congruence |]. intros (_ & _ & K3 & K4 & K5 & K6 & K7 & K8 & K9 & K10).
  apply Z.leb_le in K3, K5, K7. rewrite K3, K5, K7, K4, K6, K8, K9, K10, !Z.eqb_refl in E. discriminate.
Qed.
Lemma is_some_iff A (o : option A) : is_some o = true -> o <> None.
Proof. destruct o; cbn [is_some]; congruence. Qed.

Lemma pack_err s l err : swap_pack s l = Err err -> length l <> 324%nat /\ (err = EPanic \/ err = EInvalidAccountData).
Proof.
  unfold swap_pack, SWAP_V1_LEN. destruct l as [| x l]; cbn [length].
  - intros H. split; [discriminate | left; congruence].
  - destruct (Nat.eqb_spec (length l) 323); intros H; [discriminate |]. split; [lia | right; congruence].
Qed.

Lemma mint_same_pool sg w m d a x w1 k : call_ok sg w (CMint m d a x) w1 ->
  length (raw_of (a_data (w1 k))) = length (raw_of (a_data (w k))) /\ a_owner (w1 k) = a_owner (w k).
Proof.
  intros (mt & td & M & T & _ & _ & _ & _ & _ & _ & _ & ->). unfold with2.
  destruct (Z.eqb_spec k m) as [-> |]; [destruct M as [M1 M2]; rewrite M1, M2; split; reflexivity |].
  destruct (Z.eqb_spec k d) as [-> |]; [destruct T as [T1 T2]; rewrite T1, T2; split; reflexivity |].
  split; reflexivity.
Qed.

(** What a failed creation says, for the fees and the curve it was asked for. *)
Definition init_fault (e : env) (signers : list Z) (w : world) (f : fees) (c : curve)
    (pool authority va vb mint fee dest program : Z) (err : error) : Prop :=
  let token k t := a_owner (w k) = program /\ a_data (w k) = DToken t in
  match err with
  | ERuntime => a_owner (w pool) <> PROGRAM_ID
  | EIncorrectProgramId => program <> TOKEN_PROGRAM_ID
  | EInvalidAccountData => length (raw_of (a_data (w pool))) <> 324%nat
  | EPanic => find_pda e pool = None \/ length (raw_of (a_data (w pool))) <> 324%nat
  | ESwap AlreadyInUse => exists s, swap_unpack (raw_of (a_data (w pool))) = Ok s
  | ESwap InvalidProgramAddress => forall bump, find_pda e pool <> Some (authority, bump)
  | ESwap IncorrectTokenProgramId => foreign w program [va; vb; fee; dest; mint]
  | ESwap ExpectedAccount => no_token w [va; vb; fee; dest]
  | ESwap ExpectedMint => no_mint w mint
  | ESwap InvalidOwner =>
      (exists k t, In k [va; vb] /\ token k t /\ t_owner t <> authority) \/
      (exists m, a_data (w mint) = DMint m /\ m_authority m <> Some authority) \/
      (exists sc t, constraints e = Some sc /\ token fee t /\ sc_owner_key sc <> Some (t_owner t))
  | ESwap InvalidOutputOwner => exists k t, In k [dest; fee] /\ token k t /\ t_owner t = authority
  | ESwap RepeatedMint => exists ta tb, token va ta /\ token vb tb /\ t_mint ta = t_mint tb
  | ESwap EmptySupply | ESwap InvalidSupply =>
      (exists ta tb, token va ta /\ token vb tb /\
        curve_validate_supply c (t_amount ta) (t_amount tb) = Err err) \/
      (err = ESwap InvalidSupply /\ exists m, a_data (w mint) = DMint m /\ m_supply m <> 0)
  | ESwap InvalidDelegate => exists k t, In k [va; vb] /\ token k t /\ t_delegate t <> None
  | ESwap InvalidCloseAuthority => exists k t, In k [va; vb] /\ token k t /\ t_close_authority t <> None
  | ESwap InvalidFreezeAuthority => exists m, a_data (w mint) = DMint m /\ m_freeze_authority m <> None
  | ESwap IncorrectPoolMint => exists t, token fee t /\ t_mint t <> mint
  | ESwap UnsupportedCurveType => exists sc, constraints e = Some sc /\ ~ In (curve_tag c) (sc_valid_curve_tags sc)
  | ESwap InvalidFee =>
      (forall owner, ~ constraints_ok e f c owner) \/
       ~ (proper_fraction (trade_fee_num f) (trade_fee_den f) /\
          proper_fraction (owner_trade_fee_num f) (owner_trade_fee_den f) /\
          proper_fraction (owner_withdraw_fee_num f) (owner_withdraw_fee_den f) /\
          proper_fraction (host_fee_num f) (host_fee_den f))
  | ESwap InvalidCurve => curve_validate c <> Ok tt
  | EToken => refused (authority :: signers) w [CMint mint dest authority (10 ^ 9)]
  | _ => False
  end.

Lemma init_error e signers w f c pool authority va vb mint fee dest program err :
  env_ok e -> fees_wf f -> curve_wf c ->
  process_initialize e signers w f c [pool; authority; va; vb; mint; fee; dest; program] = Err err ->
  init_fault e signers w f c pool authority va vb mint fee dest program err.
Proof.
  intros He Wf Wc H. cbn [process_initialize] in H. unfold init_fault.
  gstep H G1. { unfold swap_is_initialized in H. destruct (swap_unpack _) as [s |]; [| discriminate]. now exists s. }
  bstep H ab Hab. { destruct (find_pda e pool) eqn:E; [discriminate |]. injection H as <-. now left. }
  destruct ab as [au bump]. destruct (find_pda e pool) as [r |] eqn:Hfind; [| discriminate]. injection Hab as ->.
  gstep H G2. { apply negb_eq_t in H. intros b. congruence. }
  apply negb_eq_f in G2. subst au.
  bstep H ta Ta. { apply token_err in H. destruct H as [[H ->] | [H ->]]; exists va; (split; [now left | exact H]). }
  bstep H tb Tb. { apply token_err in H. destruct H as [[H ->] | [H ->]]; exists vb; (split; [now right; left | exact H]). }
  bstep H tf Tf. { apply token_err in H. destruct H as [[H ->] | [H ->]]; exists fee; (split; [now right; right; left | exact H]). }
  bstep H td Td. { apply token_err in H. destruct H as [[H ->] | [H ->]]; exists dest; (split; [now right; right; right; left | exact H]). }
  bstep H pm Tm. { apply mint_err in H. destruct H as [[H ->] | [H ->]].
    - exists mint. split; [now right; right; right; right; left | exact H].
    - exact H. }
  apply token_ok2 in Ta, Tb, Tf, Td. apply mint_ok2 in Tm. destruct Tm as [Tm0 Tm].
  gstep H G3. { apply negb_eq_t in H. left. exists va, ta. split; [now left |]. split; [exact Ta | congruence]. }
  gstep H G4. { apply negb_eq_t in H. left. exists vb, tb. split; [now right; left |]. split; [exact Tb | congruence]. }
  gstep H G5. { apply Z.eqb_eq in H. exists dest, td. split; [now left |]. split; [exact Td | congruence]. }
  gstep H G6. { apply Z.eqb_eq in H. exists fee, tf. split; [now right; left |]. split; [exact Tf | congruence]. }
  gstep H G7. { apply negb_true_iff in H. right; left. exists pm. split; [exact Tm |]. intros Q. apply optZ_eqb_iff in Q. congruence. }
  gstep H G8. { apply Z.eqb_eq in H. exists ta, tb. split; [exact Ta |]. split; [exact Tb | exact H]. }
  bstep H u1 H1.
  { assert (K : (exists ta tb, (a_owner (w va) = program /\ a_data (w va) = DToken ta) /\
        (a_owner (w vb) = program /\ a_data (w vb) = DToken tb) /\
        curve_validate_supply c (t_amount ta) (t_amount tb) = Err err)).
    { exists ta, tb. split; [exact Ta |]. split; [exact Tb | exact H]. }
    pose proof H as H'. rewrite validate_supply_exact in H'.
    assert (E : err = ESwap EmptySupply \/ err = ESwap InvalidSupply).
    { destruct c; repeat match type of H' with context [if ?b then _ else _] => destruct b end; try discriminate;
        injection H' as <-; auto. }
    destruct E as [-> | ->]; left; exact K. }
  gstep H G9. { apply is_some_iff in H. exists va, ta. split; [now left |]. split; [exact Ta | exact H]. }
  gstep H G10. { apply is_some_iff in H. exists vb, tb. split; [now right; left |]. split; [exact Tb | exact H]. }
  gstep H G11. { apply is_some_iff in H. exists va, ta. split; [now left |]. split; [exact Ta | exact H]. }
  gstep H G12. { apply is_some_iff in H. exists vb, tb. split; [now right; left |]. split; [exact Tb | exact H]. }
  gstep H G13. { apply negb_eq_t in H. right. split; [reflexivity |]. exists pm. split; [exact Tm | exact H]. }
  gstep H G14. { apply is_some_iff in H. exists pm. split; [exact Tm | exact H]. }
  gstep H G15. { apply negb_eq_t in H. exists tf. split; [exact Tf | congruence]. }
  bstep H u2 H2.
  { destruct (constraints e) as [sc |] eqn:Hsc; [| discriminate].
    bstep H ow How. { destruct (sc_owner_key sc) eqn:Ek; [discriminate |]. injection H as <-. right; right. exists sc, tf.
      split; [reflexivity |]. split; [exact Tf | congruence]. }
    gstep H G16. { apply negb_eq_t in H. right; right. exists sc, tf. split; [reflexivity |]. split; [exact Tf |].
      destruct (sc_owner_key sc); [| discriminate]. congruence. }
    bstep H u3 H3. { unfold validate_curve_type in H. destruct (mem _ _) eqn:Em; [discriminate |]. injection H as <-.
      exists sc. split; [reflexivity |]. intros I'. apply mem_In in I'. congruence. }
    assert (K : err = ESwap InvalidFee) by exact (proj1 (constraint_fees_err _ _ _ c 0 _ Hsc H)). subst err.
    left. intros owner. exact (proj2 (constraint_fees_err _ _ _ c owner _ Hsc H)). }
  bstep H u4 H4. { apply (fees_err _ _ Wf) in H. destruct H as [-> H]. now right. }
  bstep H u5 H5. { destruct (validate_exact c Wc) as [_ V].
    assert (curve_validate c <> Ok tt) by congruence. specialize (V H0). assert (err = ESwap InvalidCurve) by congruence.
    subst err. exact H0. }
  bstep H ia Hia. { apply u64_err in H. destruct H as [H _]. change (new_pool_supply c) with (10 ^ 9) in H. unfold u64_max in H. lia. }
  apply u64_ok' in Hia. destruct Hia as [-> _]. change (new_pool_supply c) with (10 ^ 9) in H.
  destruct He as [He1 _]. destruct (He1 _ _ _ Hfind) as (Hcr & _).
  bstep H w1 W1.
  { unfold token_mint_to in H. bstep H sg Hsg.
    - unfold cpi_signers in H. gstep H G17. { now apply negb_eq_t in H. } rewrite Hcr in H. discriminate.
    - unfold cpi_signers in Hsg. rewrite Hcr in Hsg. apply rbind_ok in Hsg. destruct Hsg as (? & _ & Hsg). injection Hsg as <-.
      assert (K : err = EToken) by now apply mint_to_err in H. subst err. apply refused_here. intros w2 C. apply mint_iff in C. congruence. }
  assert (C : call_ok (authority :: signers) w (CMint mint dest authority (10 ^ 9)) w1).
  { unfold token_mint_to, cpi_signers in W1. rewrite Hcr in W1. apply rbind_ok in W1. destruct W1 as (sg & Hsg & W1).
    apply rbind_ok in Hsg. destruct Hsg as (? & _ & Hsg). injection Hsg as <-. now apply mint_iff. }
  destruct (mint_same_pool _ _ _ _ _ _ _ pool C) as [L O].
  bstep H by' Hby. { apply pack_err in H. destruct H as [H [-> | ->]]; rewrite L in H; [now right | exact H]. }
  gstep H G18. { apply negb_eq_t in H. congruence. }
  discriminate.
Qed.

Lemma create_error e signers w i err : env_ok e -> creates i ->
  exec e signers w i = Err err -> create_fault e signers w i err.
Proof.
  intros He Hc H. destruct i as [accounts f p | accounts sn sd pn pd | | | | |]; try contradiction; unfold exec in H.
  - bstep H u Hu. { apply args_err in H. destruct H as [-> H]. unfold create_fault. cbn [instr_accounts].
      do 8 (destruct accounts as [| ? accounts]; [right; split; [reflexivity | exact H] |]). now left. }
    bstep H l Hl. { apply anchor_err in H. destruct H as [(L & ->) | (L & N & ->)]; unfold create_fault; cbn [instr_accounts].
      - do 8 (destruct accounts as [| ? accounts]; [now left |]). cbn [length] in L. lia.
      - do 8 (destruct accounts as [| ? accounts]; [cbn [length] in L; lia |]). exact N. }
    apply guard_ok, negb_false_iff in Hu. cbn [instr_args forallb] in Hu. rewrite !andb_true_iff in Hu.
    destruct Hu as (U1 & U2 & U3 & U4 & U5 & U6 & U7 & U8 & U9 & _).
    apply u64b_ok in U1, U2, U3, U4, U5, U6, U7, U8, U9.
    apply anchor_ok in Hl. destruct Hl as (L & Hs & ->).
    destruct accounts as [| pool [| authority [| va [| vb [| mint [| fee [| dest [| program rest]]]]]]]]; try (cbn [length] in L; lia).
    cbn [firstn] in H. apply init_error in H; [| exact He | repeat (split; [assumption |]); assumption | exact U9].
    unfold create_fault. cbn [instr_accounts]. unfold init_fault in H. cbv zeta in *.
    destruct err as [[] | | | | | | | | |]; try exact H; try contradiction.
    + destruct H as [(ta & tb & A & B & H) | (Q & _)]; [| discriminate]. exists ta, tb. split; [exact A |]. split; [exact B |].
      rewrite validate_supply_exact in H. destruct (Z.eqb_spec (t_amount ta) 0); [assumption | discriminate].
    + destruct H as [(ta & tb & A & B & H) | (_ & H)]; [| left; exact H].
      rewrite validate_supply_exact in H. destruct (Z.eqb_spec (t_amount ta) 0); discriminate.
    + exists f, (ConstantPrice p). split; [reflexivity | exact H].
    + destruct H as (sc & A & B). exists sc, f, (ConstantPrice p). split; [exact A |]. split; [reflexivity | exact B].
    + assert (Wc : curve_wf (ConstantPrice p)) by exact U9. destruct (validate_exact _ Wc) as [V _].
      destruct (Z.eq_dec p 0) as [E | E]; [exact E |]. exfalso. apply H, V. unfold is_u64 in U9. lia.
    + now right.
  - bstep H u Hu. { apply args_err in H. destruct H as [-> H]. unfold create_fault. cbn [instr_accounts].
      do 8 (destruct accounts as [| ? accounts]; [right; split; [reflexivity | exact H] |]). now left. }
    bstep H l Hl. { apply anchor_err in H. destruct H as [(L & ->) | (L & N & ->)]; unfold create_fault; cbn [instr_accounts].
      - do 8 (destruct accounts as [| ? accounts]; [now left |]). cbn [length] in L. lia.
      - do 8 (destruct accounts as [| ? accounts]; [cbn [length] in L; lia |]). exact N. }
    apply guard_ok, negb_false_iff in Hu. cbn [instr_args forallb] in Hu. rewrite !andb_true_iff in Hu.
    destruct Hu as (U1 & U2 & U3 & U4 & _). apply u64b_ok in U1, U2, U3, U4.
    apply anchor_ok in Hl. destruct Hl as (L & Hs & ->).
    destruct accounts as [| pool [| authority [| va [| vb [| mint [| fee [| dest [| program rest]]]]]]]]; try (cbn [length] in L; lia).
    assert (Wc : curve_wf (LinearPrice (mk_linear sn sd pn pd))) by (repeat (split; [assumption |]); assumption).
    cbn [firstn] in H. apply init_error in H; [| exact He | | exact Wc].
    2: { unfold fees_wf, linear_fees, is_u64, u64_max. cbn. lia. }
    unfold create_fault. cbn [instr_accounts]. unfold init_fault in H. cbv zeta in *.
    destruct err as [[] | | | | | | | | |]; try exact H; try contradiction.
    + destruct H as [(ta & tb & A & B & H) | (Q & _)]; [| discriminate]. exists ta, tb. split; [exact A |]. split; [exact B |].
      rewrite validate_supply_exact in H. destruct (Z.eqb_spec (t_amount tb) 0); [assumption |].
      destruct (t_amount ta =? 0); discriminate.
    + destruct H as [(ta & tb & A & B & H) | (_ & H)]; [| left; exact H].
      rewrite validate_supply_exact in H. destruct (Z.eqb_spec (t_amount tb) 0); [discriminate |].
      destruct (Z.eqb_spec (t_amount ta) 0); [discriminate |]. right. exists ta. split; [exact A |]. split; [assumption | exact Logic.I].
    + eexists _, _. split; [reflexivity | exact H].
    + destruct H as (sc & A & B). eexists sc, _, _. split; [exact A |]. split; [reflexivity | exact B].
    + destruct (validate_exact _ Wc) as [V _]. cbn [slope_num slope_den price_num price_den] in V.
      destruct (Z.eq_dec sn 0); [now left |]. destruct (Z.eq_dec sd 0); [now right; left |].
      destruct (Z.eq_dec pd 0); [now right; right; left |]. right; right; right.
      destruct (Z.lt_ge_cases (sn * 10 ^ 18) sd); [assumption |]. exfalso. apply H, V. tauto.
    + now right.
Qed.

Lemma unpack_err l err : swap_unpack l = Err err ->
  (err = EUninitializedAccount /\ (nth 0 l 0 <> 1 \/ nth 1 l 0 = 0)) \/
  (err = EInvalidAccountData /\
   (length l <> 324%nat \/ ~ In (nth 1 l 0) [0; 1] \/ ~ In (nth 291 l 0) [0; 1; 2; 3; 30])).
Proof.
  unfold swap_unpack, SWAP_V1_LEN. destruct l as [| v l]. { intros H. right. split; [congruence |]. left. discriminate. }
  destruct (Z.eqb_spec v 1) as [-> | N].
  2: { intros H. left. split; [congruence |]. left. exact N. }
  destruct (Nat.eqb_spec (length l) 323) as [L | L].
  2: { intros H. right. split; [congruence |]. left. cbn [length]. lia. }
  intros H. bstep H s Hs.
  - right. unfold unpack_v1_from in H. cbn [nth].
    bstep H b Hb.
    { assert (K : err = EInvalidAccountData /\ ~ In (nth 0 l 0) [0; 1]).
      { destruct (nth 0 l 0) as [| [q | q |] | q]; try discriminate; (split; [congruence | intros [Q | [Q | []]]; discriminate]). }
      destruct K as [-> K]. split; [reflexivity |]. right; left. exact K. }
    bstep H c Hc.
    { assert (K : err = EInvalidAccountData /\ ~ In (nth 290 l 0) [0; 1; 2; 3; 30]).
      { unfold unpack_curve in H. cbv zeta in H. rewrite <- (nth_slice 290 l). split.
        - revert H. repeat match goal with |- context [match ?x with _ => _ end] => destruct x end; congruence.
        - intros I'. destruct I' as [I' | [I' | [I' | [I' | [I' | []]]]]]; rewrite <- I' in H; discriminate. }
      destruct K as [-> K]. split; [reflexivity |]. right; right. exact K. }
    discriminate.
  - left. destruct (st_is_initialized s) eqn:E; [discriminate |]. split; [congruence |]. right. cbn [nth].
    unfold unpack_v1_from in Hs. apply rbind_ok in Hs. destruct Hs as (b & Hb & Hs).
    apply rbind_ok in Hs. destruct Hs as (c & _ & Hs). injection Hs as <-. cbn [st_is_initialized] in E. subst b.
    destruct (nth 0 l 0) as [| [q | q |] | q]; try discriminate; reflexivity.
Qed.

Lemma no_pool_error e signers w i err : ~ creates i ->
  (forall s, swap_unpack (raw_of (a_data (w (named_pool i)))) <> Ok s) ->
  exec e signers w i = Err err -> no_pool_fault signers w i err.
Proof.
  intros Nc Np H.
  assert (K : forall (x : swap_state -> result world),
      (do! s := swap_unpack (raw_of (a_data (w (named_pool i)))) in x s) = Err err -> no_pool_fault signers w i err).
  { intros x Hx. bstep Hx s Hs; [| exfalso; exact (Np s Hs)].
    apply unpack_err in Hx. unfold no_pool_fault. cbv zeta. destruct Hx as [[-> Hx] | [-> Hx]]; exact Hx. }
  destruct i as [| | accounts x y | accounts x y z | accounts x y z | accounts x y | accounts x y];
    try (exfalso; apply Nc; exact Logic.I); unfold exec in H;
    (bstep H u Hu; [apply args_err in H; destruct H as [-> H]; exact H |]);
    (bstep H l Hl; [apply anchor_err in H; destruct H as [(L & ->) | (L & N & ->)]; [unfold no_pool_fault; cbn [instr_accounts]; lia | exact N] |]);
    apply anchor_ok in Hl; destruct Hl as (L & _ & ->); unfold named_pool in K; cbn [instr_accounts] in K.
  - do 10 (destruct accounts as [| ? accounts]; [cbn [length] in L; lia |]). cbn [firstn process_swap nth] in H, K.
    gstep H G. { now apply negb_eq_t in H. } exact (K _ H).
  - do 10 (destruct accounts as [| ? accounts]; [cbn [length] in L; lia |]). cbn [firstn process_deposit_all nth] in H, K. exact (K _ H).
  - do 11 (destruct accounts as [| ? accounts]; [cbn [length] in L; lia |]). cbn [firstn process_withdraw_all nth] in H, K. exact (K _ H).
  - do 9 (destruct accounts as [| ? accounts]; [cbn [length] in L; lia |]). cbn [firstn process_deposit_single nth] in H, K. exact (K _ H).
  - do 10 (destruct accounts as [| ? accounts]; [cbn [length] in L; lia |]). cbn [firstn process_withdraw_single nth] in H, K. exact (K _ H).
Qed.

(** The numbers. *)
Lemma code_range c : 0 <= error_code c <= 27.
Proof. destruct c; cbn; lia. Qed.
Lemma code_decode c : error_from_code (error_code c) = Some c.
Proof. destruct c; reflexivity. Qed.
Lemma decode_code n c : error_from_code n = Some c -> n = error_code c.
Proof.
  unfold error_from_code. destruct n as [| q | q]; [| | discriminate].
  - intros H. injection H as <-. reflexivity.
  - do 5 (destruct q as [q | q |]; try (intros H; discriminate H); try (intros H; injection H as <-; reflexivity)).
Qed.

(** On reachable ledgers. *)
Lemma reachable_program e w k s : env_ok e -> reachable e w -> pool_at w k s ->
  world_wf w /\ st_token_program_id s = TOKEN_PROGRAM_ID.
Proof.
  intros He R Hp. destruct (reachable_inv _ _ He R) as [W I]. destruct (I _ _ Hp) as (au & _ & T & _). split; assumption.
Qed.
Lemma invalid_supply_price e signers w accounts f p : env_ok e ->
  exec e signers w (InitConstantPrice accounts f p) = Err (ESwap InvalidSupply) ->
  exists m, a_data (w (nth 4 accounts 0)) = DMint m /\ m_supply m <> 0.
Proof.
  intros He H. apply create_error in H; [| exact He | exact Logic.I]. unfold create_fault in H. cbn [instr_accounts] in H.
  do 8 (destruct accounts as [| ? accounts]; [destruct H as [H | [H _]]; discriminate |]). cbn [nth].
  destruct H as [H | (ta & _ & _ & [])]. exact H.
Qed.
