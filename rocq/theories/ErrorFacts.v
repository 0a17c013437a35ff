(** Errors mean what they say. *)
From Verif Require Import Ints Tactics Fees LinearCurve SwapCurve Codec Token Processor Api History
  Spec LedgerSpec CallSpec ErrorSpec CurveFacts LinearProps CodecFacts TokenFacts ProcFacts AmountFacts EffectFacts CreateFacts CallFacts ExactFacts.

Lemma bind_err A B (m : result A) (k : A -> result B) err :
  rbind m k = Err err -> m = Err err \/ exists a, m = Ok a /\ k a = Err err.
Proof. destruct m; cbn [rbind]; intros H; [right; eauto | left; congruence]. Qed.
Lemma guard_err b e err : guard b e = Err err -> b = true /\ err = e.
Proof. destruct b; cbn [guard]; intros H; [split; congruence | discriminate]. Qed.
Lemma ok_or_err A (m : outcome A) e err : ok_or m e = Err err -> m = Non /\ err = e \/ m = Panic /\ err = EPanic.
Proof. destruct m; cbn [ok_or]; intros H; [discriminate | left; split; congruence | right; split; congruence]. Qed.
Lemma token_err w k p err : unpack_token_account w k p = Err err ->
  a_owner (w k) <> p /\ err = ESwap IncorrectTokenProgramId \/
  (forall t, a_data (w k) <> DToken t) /\ err = ESwap ExpectedAccount.
Proof.
  unfold unpack_token_account. destruct (Z.eqb_spec (a_owner (w k)) p); cbn [negb]; intros H.
  - right. destruct (a_data (w k)); [discriminate | |]; (split; [congruence |]; congruence).
  - left. split; [assumption | congruence].
Qed.
Lemma mint_err w k p err : unpack_mint w k p = Err err ->
  a_owner (w k) <> p /\ err = ESwap IncorrectTokenProgramId \/
  (forall t, a_data (w k) <> DMint t) /\ err = ESwap ExpectedMint.
Proof.
  unfold unpack_mint. destruct (Z.eqb_spec (a_owner (w k)) p); cbn [negb]; intros H.
  - right. destruct (a_data (w k)); [| discriminate |]; (split; [congruence |]; congruence).
  - left. split; [assumption | congruence].
Qed.
Lemma u64_err x err : to_u64 x = Err err -> u64_max < x /\ err = ESwap ConversionFailure.
Proof. unfold to_u64. destruct (Z.leb_spec x u64_max); intros H'; [discriminate | split; [assumption | congruence]]. Qed.
Lemma authority_err e k b err : authority_id e k b = Err err -> create_pda e k b = None /\ err = ESwap InvalidProgramAddress.
Proof. unfold authority_id. destruct (create_pda e k b); intros H; [discriminate | split; congruence]. Qed.

Ltac egd H := apply bind_err in H; destruct H as [H | (? & ? & H)]; [apply guard_err in H; destruct H as [_ H]; exact H |].
Lemma validate_owner_err w sg x a err : validate_owner w sg x a = Err err -> err = EToken.
Proof. unfold validate_owner. intros H. do 2 egd H. apply guard_err in H. tauto. Qed.
Lemma get_token_err w k err : get_token w k = Err err -> err = EToken.
Proof. unfold get_token. destruct (_ =? _); [destruct (a_data _) |]; congruence. Qed.
Lemma get_mint_err w k err : get_mint w k = Err err -> err = EToken.
Proof. unfold get_mint. destruct (_ =? _); [destruct (a_data _) |]; congruence. Qed.
Lemma authorize_err w sg t a x err : authorize_debit w sg t a x = Err err -> err = EToken.
Proof.
  unfold authorize_debit. destruct (optZ_eqb _ _); intros H.
  - apply bind_err in H. destruct H as [H | (? & _ & H)]; [now apply validate_owner_err in H |].
    egd H. discriminate.
  - apply bind_err in H. destruct H as [H | (? & _ & H)]; [now apply validate_owner_err in H |]. discriminate.
Qed.
Lemma transfer_err w sg s d a x err : spl_transfer w sg s d a x = Err err -> err = EToken.
Proof.
  unfold spl_transfer. intros H.
  do 2 (apply bind_err in H; destruct H as [H | (? & _ & H)]; [now apply get_token_err in H |]).
  do 3 egd H. apply bind_err in H; destruct H as [H | (? & _ & H)]; [now apply authorize_err in H |].
  destruct (s =? d); [discriminate |]. egd H. discriminate.
Qed.
Lemma mint_to_err w sg m d a x err : spl_mint_to w sg m d a x = Err err -> err = EToken.
Proof.
  unfold spl_mint_to. intros H.
  repeat (apply bind_err in H; destruct H as [H | (? & _ & H)];
    [first [now apply get_token_err in H | now apply get_mint_err in H | now apply validate_owner_err in H
           | apply guard_err in H; tauto
           | destruct (m_authority _); [now apply validate_owner_err in H | congruence]] |]).
  discriminate.
Qed.
Lemma burn_err w sg s m a x err : spl_burn w sg s m a x = Err err -> err = EToken.
Proof.
  unfold spl_burn. intros H.
  repeat (apply bind_err in H; destruct H as [H | (? & _ & H)];
    [first [now apply get_token_err in H | now apply get_mint_err in H | now apply authorize_err in H
           | apply guard_err in H; tauto] |]).
  discriminate.
Qed.

Lemma no_ok A (m : result A) err : m = Err err -> forall a, m <> Ok a.
Proof. intros -> a; discriminate. Qed.

(** Calls through the program's wrappers. *)
Lemma wtransfer_err e signers w k s d a b x au err : create_pda e k b = Some au ->
  token_transfer e signers w k TOKEN_PROGRAM_ID s d a b x = Err err ->
  err = EToken /\ forall w2, ~ call_ok (au :: signers) w (CTransfer s d a x) w2.
Proof.
  intros P. unfold token_transfer. rewrite (cpi_eq _ _ _ _ _ P). cbn [rbind]. intros H.
  split; [now apply transfer_err in H |]. intros w2 C. apply transfer_iff in C. congruence.
Qed.
Lemma wmint_err e signers w k s d a b x au err : create_pda e k b = Some au ->
  token_mint_to e signers w k TOKEN_PROGRAM_ID s d a b x = Err err ->
  err = EToken /\ forall w2, ~ call_ok (au :: signers) w (CMint s d a x) w2.
Proof.
  intros P. unfold token_mint_to. rewrite (cpi_eq _ _ _ _ _ P). cbn [rbind]. intros H.
  split; [now apply mint_to_err in H |]. intros w2 C. apply mint_iff in C. congruence.
Qed.
Lemma wburn_err e signers w k s d a b x au err : create_pda e k b = Some au ->
  token_burn e signers w k TOKEN_PROGRAM_ID s d a b x = Err err ->
  err = EToken /\ forall w2, ~ call_ok (au :: signers) w (CBurn s d a x) w2.
Proof.
  intros P. unfold token_burn. rewrite (cpi_eq _ _ _ _ _ P). cbn [rbind]. intros H.
  split; [now apply burn_err in H |]. intros w2 C. apply burn_iff in C. congruence.
Qed.
Lemma wtransfer_ok e signers w k s d a b x au w1 : create_pda e k b = Some au ->
  token_transfer e signers w k TOKEN_PROGRAM_ID s d a b x = Ok w1 ->
  call_ok (au :: signers) w (CTransfer s d a x) w1.
Proof.
  intros P. unfold token_transfer. rewrite (cpi_eq _ _ _ _ _ P). cbn [rbind]. intros H. now apply transfer_iff.
Qed.
Lemma wmint_ok e signers w k s d a b x au w1 : create_pda e k b = Some au ->
  token_mint_to e signers w k TOKEN_PROGRAM_ID s d a b x = Ok w1 ->
  call_ok (au :: signers) w (CMint s d a x) w1.
Proof.
  intros P. unfold token_mint_to. rewrite (cpi_eq _ _ _ _ _ P). cbn [rbind]. intros H. now apply mint_iff.
Qed.
Lemma wburn_ok e signers w k s d a b x au w1 : create_pda e k b = Some au ->
  token_burn e signers w k TOKEN_PROGRAM_ID s d a b x = Ok w1 ->
  call_ok (au :: signers) w (CBurn s d a x) w1.
Proof.
  intros P. unfold token_burn. rewrite (cpi_eq _ _ _ _ _ P). cbn [rbind]. intros H. now apply burn_iff.
Qed.

Lemma refused_here sg w c l : (forall w2, ~ call_ok sg w c w2) -> refused sg w (c :: l).
Proof. intros H. exists [], c, l, w. split; [reflexivity |]. split; [reflexivity | exact H]. Qed.
Lemma refused_later sg w c w1 l : call_ok sg w c w1 -> refused sg w1 l -> refused sg w (c :: l).
Proof.
  intros H (l1 & c' & l2 & w2 & -> & H1 & H2). exists (c :: l1), c', l2, w2. split; [reflexivity |].
  split; [| exact H2]. exists w1. split; assumption.
Qed.
Lemma refused_app sg w l0 w1 l : calls_ok sg w l0 w1 -> refused sg w1 l -> refused sg w (l0 ++ l).
Proof.
  intros H (l1 & c' & l2 & w2 & -> & H1 & H2). exists (l0 ++ l1), c', l2, w2.
  split; [now rewrite app_assoc |]. split; [| exact H2]. apply calls_app. exists w1. split; assumption.
Qed.
Lemma refused_any sg w x c l : 0 < x -> (forall w2, ~ call_ok sg w c w2) -> refused sg w (if_any x c ++ l).
Proof. intros H. apply Z.ltb_lt in H. unfold if_any. rewrite H. apply refused_here. Qed.
Lemma refused_any' sg w x c : 0 < x -> (forall w2, ~ call_ok sg w c w2) -> refused sg w (if_any x c).
Proof. intros H N. rewrite <- (app_nil_r (if_any x c)). now apply refused_any. Qed.

(** Anchor's part. *)
Lemma args_err i err : guard (negb (forallb u64b (instr_args i))) ERuntime = Err err ->
  err = ERuntime /\ bad_argument i.
Proof.
  intros H. apply guard_err in H. destruct H as [H ->]. split; [reflexivity |].
  apply negb_true_iff in H. unfold bad_argument. induction (instr_args i) as [| x l IH]; [discriminate |].
  cbn [forallb] in H. apply andb_false_iff in H. destruct H as [H | H].
  - exists x. split; [now left |]. intros U. apply u64b_ok in U. congruence.
  - destruct (IH H) as (y & Y & N). exists y. split; [now right | exact N].
Qed.
Lemma anchor_err n sg signers accounts err : anchor_accounts n sg signers accounts = Err err ->
  (length accounts < n)%nat /\ err = ENotEnoughAccountKeys \/
  (n <= length accounts)%nat /\ ~ In (nth sg accounts 0) signers /\ err = EMissingRequiredSignature.
Proof.
  unfold anchor_accounts. intros H. apply bind_err in H. destruct H as [H | (? & G & H)].
  - apply guard_err in H. destruct H as [H ->]. apply Nat.ltb_lt in H. now left.
  - right. apply guard_ok in G. apply Nat.ltb_ge in G. split; [exact G |].
    apply bind_err in H. destruct H as [H | (? & ? & H)]; [| discriminate].
    apply guard_err in H. destruct H as [H ->]. split; [| reflexivity]. intros I'. apply mem_In in I'.
    rewrite I' in H. discriminate.
Qed.
Lemma anchor_ok n sg signers accounts l : anchor_accounts n sg signers accounts = Ok l ->
  (n <= length accounts)%nat /\ In (nth sg accounts 0) signers /\ l = firstn n accounts.
Proof.
  unfold anchor_accounts. intros H. apply rbind_ok in H. destruct H as (? & G & H). apply guard_ok in G.
  apply Nat.ltb_ge in G. apply rbind_ok in H. destruct H as (? & G' & H). apply guard_ok in G'.
  apply negb_false_iff, mem_In in G'. split; [exact G |]. split; [exact G' | congruence].
Qed.

(** The shared account checks. *)
Lemma check_err e w s k au ka kb mint tp ua ub fee err :
  a_owner (w k) = PROGRAM_ID -> st_token_program_id s = TOKEN_PROGRAM_ID ->
  check_accounts e w s k au ka kb mint tp ua ub fee = Err err ->
  exists err', err = ESwap err' /\ account_fault e w s k au ka kb mint tp ua ub fee err'.
Proof.
  intros Ho Htp. unfold check_accounts. rewrite Ho, Htp. intros H.
  apply bind_err in H. destruct H as [H | (? & _ & H)]; [apply guard_err in H; destruct H; discriminate |].
  apply bind_err in H. destruct H as [H | (a & Ha & H)].
  { apply authority_err in H. destruct H as [H ->]. eexists. split; [reflexivity |]. cbn [account_fault]. congruence. }
  assert (Ha' : create_pda e k (st_bump_seed s) = Some a).
  { unfold authority_id in Ha. destruct (create_pda e k (st_bump_seed s)); congruence. }
  assert (G : forall x y, negb (x =? y) = true -> x <> y).
  { intros p0 q0 Q. apply negb_true_iff, Z.eqb_neq in Q. exact Q. }
  apply bind_err in H. destruct H as [H | (? & _ & H)].
  { apply guard_err in H. destruct H as [H ->]. eexists. split; [reflexivity |]. cbn [account_fault].
    apply G in H. congruence. }
  apply bind_err in H. destruct H as [H | (? & _ & H)].
  { apply guard_err in H. destruct H as [H ->]. eexists. split; [reflexivity |]. cbn [account_fault].
    apply G in H. now left. }
  apply bind_err in H. destruct H as [H | (? & _ & H)].
  { apply guard_err in H. destruct H as [H ->]. eexists. split; [reflexivity |]. cbn [account_fault].
    apply G in H. now right. }
  apply bind_err in H. destruct H as [H | (? & _ & H)].
  { apply guard_err in H. destruct H as [H ->]. eexists. split; [reflexivity |]. cbn [account_fault].
    now apply G in H. }
  apply bind_err in H. destruct H as [H | (? & _ & H)].
  { apply guard_err in H. destruct H as [H ->]. eexists. split; [reflexivity |]. cbn [account_fault].
    now apply G in H. }
  apply bind_err in H. destruct H as [H | (? & _ & H)].
  { apply guard_err in H. destruct H as [H ->]. eexists. split; [reflexivity |]. cbn [account_fault].
    apply optZ_eqb_iff in H. now left. }
  apply bind_err in H. destruct H as [H | (? & _ & H)].
  { apply guard_err in H. destruct H as [H ->]. eexists. split; [reflexivity |]. cbn [account_fault].
    apply optZ_eqb_iff in H. now right. }
  destruct fee as [f |]; [| discriminate].
  apply guard_err in H. destruct H as [H ->]. eexists. split; [reflexivity |]. cbn [account_fault].
  exists f. split; [reflexivity |]. now apply G in H.
Qed.
Lemma check_ok' e w s k au ka kb mint tp ua ub fee u :
  check_accounts e w s k au ka kb mint tp ua ub fee = Ok u ->
  create_pda e k (st_bump_seed s) = Some au /\ ka = st_token_a s /\ kb = st_token_b s /\ mint = st_pool_mint s /\
  tp = st_token_program_id s.
Proof.
  unfold check_accounts. intros H.
  apply rbind_ok in H. destruct H as (? & _ & H). apply rbind_ok in H. destruct H as (a & Ha & H).
  assert (Ha' : create_pda e k (st_bump_seed s) = Some a).
  { unfold authority_id in Ha. destruct (create_pda e k (st_bump_seed s)); congruence. }
  assert (G : forall x y, negb (x =? y) = false -> x = y).
  { intros p0 q0 Q. apply negb_false_iff, Z.eqb_eq in Q. exact Q. }
  do 5 (apply rbind_ok in H; let Q := fresh in destruct H as (? & Q & H); apply guard_ok, G in Q).
  split; [congruence |]. split; [assumption |]. split; [assumption |]. split; assumption.
Qed.
