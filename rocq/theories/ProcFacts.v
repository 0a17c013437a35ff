(** What a successful instruction has checked and which token-program calls it
    has made. *)
From Verif Require Import Ints Tactics Fees LinearCurve SwapCurve Codec Token Processor Api Spec
  History LedgerSpec CurveFacts TokenFacts.

Lemma u64b_ok x : u64b x = true <-> is_u64 x.
Proof. unfold u64b, is_u64. rewrite andb_true_iff, !Z.leb_le. reflexivity. Qed.

Lemma anchor_ok n sg signers accounts l : anchor_accounts n sg signers accounts = Ok l ->
  (n <= length accounts)%nat /\ In (nth sg accounts 0) signers /\ l = firstn n accounts.
Proof.
  unfold anchor_accounts. intros H. inv. bools.
  repeat match goal with H : Nat.ltb _ _ = false |- _ => apply Nat.ltb_ge in H end.
  split; [assumption |]. split; [now apply mem_In | reflexivity].
Qed.

Lemma unpack_token_ok w k tp t : unpack_token_account w k tp = Ok t ->
  a_owner (w k) = tp /\ a_data (w k) = DToken t.
Proof.
  unfold unpack_token_account. intros H. destruct (Z.eqb_spec (a_owner (w k)) tp) as [E | E]; [| discriminate].
  cbn [negb] in H. destruct (a_data (w k)); try discriminate. split; congruence.
Qed.
Lemma unpack_mint_ok w k tp m : unpack_mint w k tp = Ok m ->
  a_owner (w k) = tp /\ a_data (w k) = DMint m.
Proof.
  unfold unpack_mint. intros H. destruct (Z.eqb_spec (a_owner (w k)) tp) as [E | E]; [| discriminate].
  cbn [negb] in H. destruct (a_data (w k)); try discriminate. split; congruence.
Qed.

Lemma authority_id_ok e k b a : authority_id e k b = Ok a -> create_pda e k b = Some a.
Proof. unfold authority_id. destruct (create_pda e k b); congruence. Qed.

Lemma cpi_ok e signers k b tp l : cpi_signers e signers k b tp = Ok l ->
  tp = TOKEN_PROGRAM_ID /\ exists a, create_pda e k b = Some a /\ l = a :: signers.
Proof.
  unfold cpi_signers. intros H. inv. bools. destruct (create_pda e k b) as [a |]; [| discriminate].
  split; [assumption |]. exists a. split; congruence.
Qed.

Lemma token_transfer_ok e signers w k tp s d a b x w' auth :
  token_transfer e signers w k tp s d a b x = Ok w' -> create_pda e k b = Some auth ->
  tp = TOKEN_PROGRAM_ID /\ apply_op (auth :: signers) w (OTransfer s d a x) = Ok w'.
Proof.
  unfold token_transfer. intros H Ha. inv.
  match goal with H : cpi_signers _ _ _ _ _ = _ |- _ => apply cpi_ok in H; destruct H as (-> & a' & E & ->) end.
  split; [reflexivity |]. rewrite Ha in E. injection E as <-. assumption.
Qed.
Lemma token_mint_to_ok e signers w k tp s d a b x w' auth :
  token_mint_to e signers w k tp s d a b x = Ok w' -> create_pda e k b = Some auth ->
  tp = TOKEN_PROGRAM_ID /\ apply_op (auth :: signers) w (OMint s d a x) = Ok w'.
Proof.
  unfold token_mint_to. intros H Ha. inv.
  match goal with H : cpi_signers _ _ _ _ _ = _ |- _ => apply cpi_ok in H; destruct H as (-> & a' & E & ->) end.
  split; [reflexivity |]. rewrite Ha in E. injection E as <-. assumption.
Qed.
Lemma token_burn_ok e signers w k tp s m a b x w' auth :
  token_burn e signers w k tp s m a b x = Ok w' -> create_pda e k b = Some auth ->
  tp = TOKEN_PROGRAM_ID /\ apply_op (auth :: signers) w (OBurn s m a x) = Ok w'.
Proof.
  unfold token_burn. intros H Ha. inv.
  match goal with H : cpi_signers _ _ _ _ _ = _ |- _ => apply cpi_ok in H; destruct H as (-> & a' & E & ->) end.
  split; [reflexivity |]. rewrite Ha in E. injection E as <-. assumption.
Qed.

Lemma to_u64_ok x y : to_u64 x = Ok y -> y = x /\ x <= u64_max.
Proof. unfold to_u64. destruct (Z.leb_spec x u64_max); [| discriminate]. intros H'. injection H' as ->. auto. Qed.

Lemma check_accounts_ok e w s k au ta tb pm tp ua ub fee u :
  check_accounts e w s k au ta tb pm tp ua ub fee = Ok u ->
  a_owner (w k) = PROGRAM_ID /\ create_pda e k (st_bump_seed s) = Some au /\
  ta = st_token_a s /\ tb = st_token_b s /\ pm = st_pool_mint s /\ tp = st_token_program_id s /\
  ua <> Some ta /\ ub <> Some tb /\ match fee with Some f => f = st_pool_fee_account s | None => True end.
Proof.
  unfold check_accounts. intros H. inv.
  match goal with H : authority_id _ _ _ = _ |- _ => apply authority_id_ok in H end.
  bools. subst.
  assert (U : forall o x, optZ_eqb o x = false -> o <> Some x).
  { intros o x E ->. cbn [optZ_eqb] in E. rewrite Z.eqb_refl in E. discriminate. }
  repeat split; auto.
  destruct fee; [| exact I]. inv. bools. assumption.
Qed.

Ltac step_facts :=
  repeat match goal with
  | H : to_u64 _ = Ok _ |- _ => apply to_u64_ok in H; destruct H as [-> ?]
  | H : unpack_token_account _ _ _ = Ok _ |- _ =>
      apply unpack_token_ok in H; let H1 := fresh "Ow" in let H2 := fresh "Da" in destruct H as [H1 H2]
  | H : unpack_mint _ _ _ = Ok _ |- _ =>
      apply unpack_mint_ok in H; let H1 := fresh "Ow" in let H2 := fresh "Da" in destruct H as [H1 H2]
  | H : authority_id _ _ _ = Ok _ |- _ => apply authority_id_ok in H
  end.


(** Inversion that keeps the equations of pairs and of the trade direction. *)
Ltac pinv :=
  repeat (match goal with
          | H : context [if ?b then AtoB else BtoA] |- _ => let E := fresh "Dir" in destruct b eqn:E
          | H : (if ?b then Ok AtoB else _) = Ok _ |- _ => let E := fresh "Dir" in destruct b eqn:E
          | H : (if ?b then Ok BtoA else _) = Ok _ |- _ => let E := fresh "Dir" in destruct b eqn:E
          | H : (let (_, _) := ?p in _) = Ok _ |- _ => let E := fresh "Ep" in destruct p eqn:E
          | _ => inv1
          end; cbv beta iota in * ); subst.

(** Common start: arguments, account list, signer. *)
Tactic Notation "start" integer(n) :=
  let H := fresh "H" in
  intros H; unfold exec in H;
  apply rbind_ok in H; let u := fresh "u" in let Hg := fresh "Hg" in destruct H as (u & Hg & H);
  apply guard_ok in Hg; apply negb_false_iff in Hg; cbn [instr_args forallb] in Hg;
  apply rbind_ok in H;
  let l := fresh "l" in let Ha := fresh "Ha" in destruct H as (l & Ha & H);
  apply anchor_ok in Ha; let Hlen := fresh "Hlen" in let Hsig := fresh "Hsig" in destruct Ha as (Hlen & Hsig & ->);
  match type of Hlen with
  | (_ <= length ?acc)%nat =>
    do n (destruct acc as [| ? acc]; [exfalso; cbn [length] in Hlen; lia |])
  end;
  clear Hlen; cbn [nth] in Hsig; cbn [firstn] in H;
  bools; repeat match goal with H : u64b _ = true |- _ => apply u64b_ok in H end.


Lemma if_transfer_ok e signers w k tp s d a b x w' auth :
  (if 0 <? x then token_transfer e signers w k tp s d a b x else Ok w) = Ok w' ->
  create_pda e k b = Some auth ->
  run_ops (auth :: signers) w (if 0 <? x then [OTransfer s d a x] else []) = Ok w'.
Proof.
  intros H Ha. destruct (0 <? x); [| exact H].
  eapply token_transfer_ok in H; [| exact Ha]. destruct H as [_ H]. cbn [run_ops]. rewrite H. reflexivity.
Qed.

Lemma if_transfer_ok' e signers w k tp s d a b x w' auth :
  (if 0 <? x then do! y := to_u64 x in token_transfer e signers w k tp s d a b y else Ok w) = Ok w' ->
  create_pda e k b = Some auth ->
  run_ops (auth :: signers) w (if 0 <? x then [OTransfer s d a x] else []) = Ok w' /\ (0 < x -> x <= u64_max).
Proof.
  intros H Ha. destruct (Z.ltb_spec 0 x); [| split; [exact H | lia]].
  apply rbind_ok in H. destruct H as (y & Hy & H). apply to_u64_ok in Hy. destruct Hy as [-> Hy].
  eapply token_transfer_ok in H; [| exact Ha]. destruct H as [_ H]. cbn [run_ops]. rewrite H. auto.
Qed.

Lemma mint_owner_fee_ok e signers w s k au mint fee tp pt w' auth :
  mint_owner_fee e signers w s k au mint fee tp [] pt = Ok w' ->
  create_pda e k (st_bump_seed s) = Some auth ->
  run_ops (auth :: signers) w (if 0 <? pt then [OMint mint fee au pt] else []) = Ok w' /\
  (0 < pt -> pt <= u64_max).
Proof.
  intros H Ha. unfold mint_owner_fee in H.
  destruct (Z.ltb_spec 0 pt); [| split; [exact H | lia]]. cbn [rbind] in H.
  apply rbind_ok in H. destruct H as (y & Hy & H). apply to_u64_ok in Hy. destruct Hy as [-> Hy].
  eapply token_mint_to_ok in H; [| exact Ha]. destruct H as [_ H]. cbn [run_ops]. rewrite H. auto.
Qed.

Lemma run_cons signed w o l w1 w2 : apply_op signed w o = Ok w1 -> run_ops signed w1 l = Ok w2 ->
  run_ops signed w (o :: l) = Ok w2.
Proof. intros H1 H2. cbn [run_ops]. rewrite H1. exact H2. Qed.
Lemma run_app_ok signed w l1 l2 w1 w2 : run_ops signed w l1 = Ok w1 -> run_ops signed w1 l2 = Ok w2 ->
  run_ops signed w (l1 ++ l2) = Ok w2.
Proof. intros H1 H2. rewrite run_app, H1. exact H2. Qed.
Lemma run_one signed w o w1 : apply_op signed w o = Ok w1 -> run_ops signed w [o] = Ok w1.
Proof. intros H1. cbn [run_ops]. rewrite H1. reflexivity. Qed.

Lemma or_eq a b c : (a =? b) || (a =? c) = true -> a = b \/ a = c.
Proof. intros H. apply orb_prop in H. destruct H as [H | H]; apply Z.eqb_eq in H; auto. Qed.

(** ** Swap *)
Definition swap_ops (source ssrc sdst dest mint fee user authority x pt y : Z) : list op :=
  OTransfer source ssrc user x ::
  (if 0 <? pt then [OMint mint fee authority pt] else []) ++ [OTransfer sdst dest authority y].

Lemma swap_trace e signers w accounts ain mout w' :
  exec e signers w (Swap accounts ain mout) = Ok w' ->
  exists pool authority user source ssrc sdst dest mint fee tp rest s ta tb pm r pt,
    accounts = pool :: authority :: user :: source :: ssrc :: sdst :: dest :: mint :: fee :: tp :: rest /\
    is_u64 ain /\ is_u64 mout /\ In user signers /\
    pool_at w pool s /\ create_pda e pool (st_bump_seed s) = Some authority /\
    (ssrc = st_token_a s \/ ssrc = st_token_b s) /\ (sdst = st_token_a s \/ sdst = st_token_b s) /\
    ssrc <> sdst /\ ssrc <> source /\ sdst <> dest /\
    mint = st_pool_mint s /\ fee = st_pool_fee_account s /\
    tp = st_token_program_id s /\ tp = TOKEN_PROGRAM_ID /\
    token_at w ssrc ta /\ token_at w sdst tb /\ mint_at w mint pm /\
    let d := if ssrc =? st_token_a s then AtoB else BtoA in
    curve_swap (st_curve s) ain (t_amount ta) (t_amount tb) d (st_fees s) = Val r /\
    mout <= destination_amount_swapped r <= u64_max /\ source_amount_swapped r <= u64_max /\
    curve_withdraw_single (st_curve s) (owner_fee r)
      (side_a d (new_swap_source_amount r) (new_swap_destination_amount r))
      (side_b d (new_swap_source_amount r) (new_swap_destination_amount r))
      (m_supply pm) d (st_fees s) = Val pt /\ (0 < pt -> pt <= u64_max) /\
    run_ops (authority :: signers) w
      (swap_ops source ssrc sdst dest mint fee user authority (source_amount_swapped r) pt
                (destination_amount_swapped r)) = Ok w'.
Proof.
  start 10. cbn [process_swap] in H. pinv; step_facts; bools;
    match goal with H : create_pda e _ _ = Some _ |- _ => rename H into Hpda end;
    repeat match goal with
    | H : token_transfer _ _ _ _ _ _ _ _ _ _ = Ok _ |- _ =>
        eapply token_transfer_ok in H; [| exact Hpda]; destruct H as [? H]
    | H : mint_owner_fee _ _ _ _ _ _ _ _ _ _ _ = Ok _ |- _ =>
        eapply mint_owner_fee_ok in H; [| exact Hpda]; destruct H as [H ?]
    end; subst;
    match goal with H : st_token_program_id _ = TOKEN_PROGRAM_ID |- _ => rename H into Htp end;
    do 17 eexists; (split; [reflexivity |]);
    (split; [assumption |]); (split; [assumption |]); (split; [eassumption |]);
    (split; [split; eassumption |]); (split; [eassumption |]);
    (split; [first [left; reflexivity | right; apply Z.eqb_eq; assumption] |]); (split; [apply or_eq; assumption |]);
    do 3 (split; [assumption |]); do 3 (split; [reflexivity |]); (split; [assumption |]);
    (split; [split; [rewrite <- Htp; eassumption | eassumption] |]);
    (split; [split; [rewrite <- Htp; eassumption | eassumption] |]);
    (split; [split; [rewrite <- Htp; eassumption | eassumption] |]);
    cbv zeta; [rewrite Z.eqb_refl | rewrite (proj2 (Z.eqb_neq _ _) Dir)];
    (split; [eassumption |]); (split; [split; assumption |]); (split; [assumption |]);
    (split; [eassumption |]); (split; [assumption |]);
    unfold swap_ops; (eapply run_cons; [eassumption |]); (eapply run_app_ok; [eassumption |]);
    apply run_one; assumption.
Qed.

Ltac ops_facts :=
  match goal with Hp : create_pda _ _ _ = Some _ |- _ =>
  repeat match goal with
  | H : token_transfer _ _ _ _ _ _ _ _ _ _ = Ok _ |- _ =>
      eapply token_transfer_ok in H; [| exact Hp]; destruct H as [? H]
  | H : token_mint_to _ _ _ _ _ _ _ _ _ _ = Ok _ |- _ =>
      eapply token_mint_to_ok in H; [| exact Hp]; destruct H as [? H]
  | H : token_burn _ _ _ _ _ _ _ _ _ _ = Ok _ |- _ =>
      eapply token_burn_ok in H; [| exact Hp]; destruct H as [? H]
  | H : (if _ then token_transfer _ _ _ _ _ _ _ _ _ _ else _) = Ok _ |- _ =>
      eapply if_transfer_ok in H; [| exact Hp]
  | H : (if _ then _ else Ok _) = Ok _ |- _ =>
      eapply if_transfer_ok' in H; [| exact Hp]; destruct H as [H ?]
  end end; subst;
  match goal with H : st_token_program_id _ = TOKEN_PROGRAM_ID |- _ => rename H into Htp end.

Ltac chk :=
  match goal with H : check_accounts _ _ _ _ _ _ _ _ _ _ _ _ = Ok _ |- _ =>
    apply check_accounts_ok in H; destruct H as (? & ? & ? & ? & ? & ? & ? & ? & ?) end.

Ltac at_facts Htp := (split; [split; [rewrite <- Htp; eassumption | eassumption] |]).

(** ** Deposit of both tokens *)
Definition deposit_terms (c : curve) (requested supply : Z) : Z * Z :=
  if 0 <? supply then (requested, supply) else (new_pool_supply c, new_pool_supply c).

Lemma deposit_all_trace e signers w accounts n ma mb w' :
  exec e signers w (DepositAll accounts n ma mb) = Ok w' ->
  exists pool authority user sa sb ka kb mint dest tp rest s ta tb pm a b,
    accounts = pool :: authority :: user :: sa :: sb :: ka :: kb :: mint :: dest :: tp :: rest /\
    is_u64 n /\ is_u64 ma /\ is_u64 mb /\ In user signers /\
    pool_at w pool s /\ create_pda e pool (st_bump_seed s) = Some authority /\
    ka = st_token_a s /\ kb = st_token_b s /\ mint = st_pool_mint s /\
    tp = st_token_program_id s /\ tp = TOKEN_PROGRAM_ID /\
    sa <> ka /\ sb <> kb /\ allows_deposits (st_curve s) = true /\
    token_at w ka ta /\ token_at w kb tb /\ mint_at w mint pm /\
    let (p, sup) := deposit_terms (st_curve s) n (m_supply pm) in
    pool_tokens_to_trading_tokens (st_curve s) p sup (t_amount ta) (t_amount tb) Ceiling = Val (a, b) /\
    a <= ma /\ b <= mb /\ a <> 0 /\ b <> 0 /\ p <= u64_max /\
    run_ops (authority :: signers) w
      [OTransfer sa ka user a; OTransfer sb kb user b; OMint mint dest authority p] = Ok w'.
Proof.
  start 10. cbn [process_deposit_all] in H. pinv; chk; step_facts; bools; subst; ops_facts.
  do 17 eexists. split; [reflexivity |].
  do 3 (split; [assumption |]). split; [eassumption |].
  split; [split; eassumption |]. split; [eassumption |].
  do 4 (split; [reflexivity |]). split; [assumption |].
  split; [congruence |]. split; [congruence |]. split; [assumption |].
  do 3 at_facts Htp. unfold deposit_terms.
  match goal with H : (if _ then _ else _) = (_, _) |- _ => rewrite H end.
  split; [eassumption |]. do 5 (split; [assumption |]).
  eapply run_cons; [eassumption |]. eapply run_cons; [eassumption |]. apply run_one. assumption.
Qed.

Lemma fee_cases (fee source wf : Z) m :
  (if fee =? source then Ok 0 else ok_or m (ESwap FeeCalculationFailure)) = Ok wf ->
  fee = source /\ wf = 0 \/ fee <> source /\ m = Val wf.
Proof.
  destruct (Z.eqb_spec fee source); intros H; [left; split; congruence | right].
  apply ok_or_ok in H. auto.
Qed.
Lemma zero_guard a t : (a =? 0) && negb (t =? 0) = false -> a = 0 -> t = 0.
Proof. intros H ->. cbn in H. apply negb_false_iff, Z.eqb_eq in H. exact H. Qed.
Lemma supply_cases m p (sup np : Z) :
  (if 0 <? sup then ok_or m (ESwap ZeroTradingTokens) else Ok np) = Ok p ->
  0 < sup /\ m = Val p \/ sup <= 0 /\ p = np.
Proof.
  destruct (Z.ltb_spec 0 sup); intros H'; [left; apply ok_or_ok in H'; auto | right; split; [lia | congruence]].
Qed.

(** ** Withdrawal of both tokens *)
Definition when (x : Z) (o : op) : list op := if 0 <? x then [o] else [].

Lemma withdraw_all_trace e signers w accounts n ma mb w' :
  exec e signers w (WithdrawAll accounts n ma mb) = Ok w' ->
  exists pool authority user mint source ka kb da db fee tp rest s ta tb pm wf ra rb,
    accounts = pool :: authority :: user :: mint :: source :: ka :: kb :: da :: db :: fee :: tp :: rest /\
    is_u64 n /\ is_u64 ma /\ is_u64 mb /\ In user signers /\
    pool_at w pool s /\ create_pda e pool (st_bump_seed s) = Some authority /\
    ka = st_token_a s /\ kb = st_token_b s /\ mint = st_pool_mint s /\ fee = st_pool_fee_account s /\
    tp = st_token_program_id s /\ tp = TOKEN_PROGRAM_ID /\
    da <> ka /\ db <> kb /\
    token_at w ka ta /\ token_at w kb tb /\ mint_at w mint pm /\
    (fee = source /\ wf = 0 \/ fee <> source /\ owner_withdraw_fee (st_fees s) n = Val wf) /\
    wf <= n /\ (0 < wf -> wf <= u64_max) /\ n - wf <= u64_max /\
    pool_tokens_to_trading_tokens (st_curve s) (n - wf) (m_supply pm) (t_amount ta) (t_amount tb) Floor
      = Val (ra, rb) /\
    ra <= u64_max /\ rb <= u64_max /\
    let a := Z.min (t_amount ta) ra in let b := Z.min (t_amount tb) rb in
    ma <= a /\ mb <= b /\ (a = 0 -> t_amount ta = 0) /\ (b = 0 -> t_amount tb = 0) /\
    run_ops (authority :: signers) w
      (when wf (OTransfer source fee user wf) ++ [OBurn source mint user (n - wf)] ++
       when a (OTransfer ka da authority a) ++ when b (OTransfer kb db authority b)) = Ok w'.
Proof.
  start 11. cbn [process_withdraw_all] in H. pinv; chk; step_facts; bools; subst; ops_facts.
  all: do 19 eexists; (split; [reflexivity |]);
  do 3 (split; [assumption |]); (split; [eassumption |]);
  (split; [split; eassumption |]); (split; [eassumption |]);
  do 5 (split; [reflexivity |]); (split; [assumption |]);
  (split; [congruence |]); (split; [congruence |]);
  do 3 at_facts Htp.
  split. { exact (fee_cases _ _ _ _ Hm4). }
  split; [assumption |]. split; [assumption |]. split; [assumption |].
  split; [eassumption |]. split; [assumption |]. split; [assumption |]. cbv zeta.
  split; [assumption |]. split; [assumption |].
  split; [apply zero_guard; assumption |]. split; [apply zero_guard; assumption |].
  unfold when. eapply run_app_ok; [eassumption |]. eapply run_app_ok; [apply run_one; eassumption |].
  eapply run_app_ok; eassumption.
Qed.

(** ** Deposit of one token *)
Definition vault_of (d : trade_direction) (ka kb : Z) : Z := match d with AtoB => ka | BtoA => kb end.

Definition direction_of (mint mint_a mint_b : Z) (d : trade_direction) : Prop :=
  match d with AtoB => mint = mint_a | BtoA => mint = mint_b /\ mint <> mint_a end.

Lemma deposit_single_trace e signers w accounts n mp w' :
  exec e signers w (DepositSingle accounts n mp) = Ok w' ->
  exists pool authority user source ka kb mint dest tp rest s ts ta tb pm d p,
    accounts = pool :: authority :: user :: source :: ka :: kb :: mint :: dest :: tp :: rest /\
    is_u64 n /\ is_u64 mp /\ In user signers /\
    pool_at w pool s /\ create_pda e pool (st_bump_seed s) = Some authority /\
    ka = st_token_a s /\ kb = st_token_b s /\ mint = st_pool_mint s /\
    tp = st_token_program_id s /\ tp = TOKEN_PROGRAM_ID /\
    token_at w source ts /\ token_at w ka ta /\ token_at w kb tb /\ mint_at w mint pm /\
    direction_of (t_mint ts) (t_mint ta) (t_mint tb) d /\ source <> vault_of d ka kb /\
    (0 < m_supply pm /\
       curve_deposit_single (st_curve s) n (t_amount ta) (t_amount tb) (m_supply pm) d (st_fees s) = Val p
     \/ m_supply pm <= 0 /\ p = new_pool_supply (st_curve s)) /\
    mp <= p <= u64_max /\ p <> 0 /\
    run_ops (authority :: signers) w
      [OTransfer source (vault_of d ka kb) user n; OMint mint dest authority p] = Ok w'.
Proof.
  start 9. cbn [process_deposit_single] in H. pinv; chk; step_facts; bools; subst; ops_facts.
  all: do 17 eexists; (split; [reflexivity |]);
  do 2 (split; [assumption |]); (split; [eassumption |]);
  (split; [split; eassumption |]); (split; [eassumption |]);
  do 4 (split; [reflexivity |]); (split; [assumption |]);
  do 4 at_facts Htp.
  - split; [instantiate (1 := AtoB); assumption |]. split; [cbn [vault_of]; congruence |].
    split; [apply supply_cases; eassumption |]. split; [split; assumption |]. split; [assumption |].
    eapply run_cons; [eassumption |]. apply run_one. assumption.
  - split; [instantiate (1 := BtoA); cbn; split; assumption |]. split; [cbn [vault_of]; congruence |].
    split; [apply supply_cases; eassumption |]. split; [split; assumption |]. split; [assumption |].
    eapply run_cons; [eassumption |]. apply run_one. assumption.
Qed.

(** ** Withdrawal of one token *)
Lemma withdraw_single_trace e signers w accounts n mp w' :
  exec e signers w (WithdrawSingle accounts n mp) = Ok w' ->
  exists pool authority user mint source ka kb dest fee tp rest s td ta tb pm d p wf,
    accounts = pool :: authority :: user :: mint :: source :: ka :: kb :: dest :: fee :: tp :: rest /\
    is_u64 n /\ is_u64 mp /\ In user signers /\
    pool_at w pool s /\ create_pda e pool (st_bump_seed s) = Some authority /\
    ka = st_token_a s /\ kb = st_token_b s /\ mint = st_pool_mint s /\ fee = st_pool_fee_account s /\
    tp = st_token_program_id s /\ tp = TOKEN_PROGRAM_ID /\
    token_at w dest td /\ token_at w ka ta /\ token_at w kb tb /\ mint_at w mint pm /\
    direction_of (t_mint td) (t_mint ta) (t_mint tb) d /\ dest <> vault_of d ka kb /\
    curve_withdraw_single (st_curve s) n (t_amount ta) (t_amount tb) (m_supply pm) d (st_fees s) = Val p /\
    (fee = source /\ wf = 0 \/ fee <> source /\ owner_withdraw_fee (st_fees s) p = Val wf) /\
    p + wf <= mp /\ p + wf <> 0 /\ p <= u64_max /\ (0 < wf -> wf <= u64_max) /\
    run_ops (authority :: signers) w
      (when wf (OTransfer source fee user wf) ++
       [OBurn source mint user p; OTransfer (vault_of d ka kb) dest authority n]) = Ok w'.
Proof.
  start 10. cbn [process_withdraw_single] in H. pinv; chk; step_facts; bools; subst; ops_facts.
  all: do 19 eexists; (split; [reflexivity |]);
  do 2 (split; [assumption |]); (split; [eassumption |]);
  (split; [split; eassumption |]); (split; [eassumption |]);
  do 5 (split; [reflexivity |]); (split; [assumption |]);
  do 4 at_facts Htp.
  - split; [instantiate (1 := AtoB); assumption |]. split; [cbn [vault_of]; congruence |].
    split; [eassumption |]. split; [eapply fee_cases; eassumption |].
    split; [assumption |]. split; [assumption |]. split; [assumption |]. split; [assumption |].
    unfold when. eapply run_app_ok; [eassumption |].
    eapply run_cons; [eassumption |]. apply run_one. assumption.
  - split; [instantiate (1 := BtoA); cbn; split; assumption |]. split; [cbn [vault_of]; congruence |].
    split; [eassumption |]. split; [eapply fee_cases; eassumption |].
    split; [assumption |]. split; [assumption |]. split; [assumption |]. split; [assumption |].
    unfold when. eapply run_app_ok; [eassumption |].
    eapply run_cons; [eassumption |]. apply run_one. assumption.
Qed.

(** ** Creation *)
Lemma initialize_trace e signers w f c pool authority ka kb mint fee dest tp w' :
  process_initialize e signers w f c [pool; authority; ka; kb; mint; fee; dest; tp] = Ok w' ->
  exists bump ta tb tf td pm w1 bytes,
    swap_is_initialized (raw_of (a_data (w pool))) = false /\
    find_pda e pool = Some (authority, bump) /\ create_pda e pool bump <> None /\
    tp = TOKEN_PROGRAM_ID /\
    token_at w ka ta /\ token_at w kb tb /\ token_at w fee tf /\ token_at w dest td /\ mint_at w mint pm /\
    t_owner ta = authority /\ t_owner tb = authority /\ t_owner td <> authority /\ t_owner tf <> authority /\
    m_authority pm = Some authority /\ t_mint ta <> t_mint tb /\
    curve_validate_supply c (t_amount ta) (t_amount tb) = Ok tt /\
    t_delegate ta = None /\ t_delegate tb = None /\
    t_close_authority ta = None /\ t_close_authority tb = None /\
    m_supply pm = 0 /\ m_freeze_authority pm = None /\ t_mint tf = mint /\
    constraints_ok e f c (t_owner tf) /\ fees_validate f = Ok tt /\ curve_validate c = Ok tt /\
    (exists auth', create_pda e pool bump = Some auth' /\
       run_ops (auth' :: signers) w [OMint mint dest authority INITIAL_SWAP_POOL_AMOUNT] = Ok w1) /\
    a_owner (w pool) = PROGRAM_ID /\
    swap_pack (mk_swap_state true bump TOKEN_PROGRAM_ID ka kb mint (t_mint ta) (t_mint tb) fee f c)
              (raw_of (a_data (w pool))) = Ok bytes /\
    w' = upd w1 pool (mk_account PROGRAM_ID (DRaw bytes)).
Proof.
  intros H. cbn [process_initialize] in H. pinv.
  destruct (find_pda e pool) as [[au bump] |] eqn:Ef; [| discriminate].
  injection Hm0 as -> ->.
  match goal with H : token_mint_to _ _ _ _ _ _ _ _ _ _ = Ok _ |- _ => rename H into Hmt end.
  assert (Hcpi : tp = TOKEN_PROGRAM_ID /\ exists a, create_pda e pool z0 = Some a).
  { unfold token_mint_to in Hmt. apply rbind_ok in Hmt. destruct Hmt as (l & Hl & _).
    apply cpi_ok in Hl. destruct Hl as (-> & a & E & _). split; [reflexivity | exists a; exact E]. }
  destruct Hcpi as (-> & auth' & Hpda).
  eapply token_mint_to_ok in Hmt; [| exact Hpda]. destruct Hmt as [_ Hmt].
  step_facts. bools. subst.
  repeat match goal with
  | H : is_some ?o = false |- _ => let E := fresh "N" in destruct o eqn:E; [discriminate H |]; clear H
  | u : unit |- _ => destruct u
  end.
  match goal with H : optZ_eqb ?o _ = true |- _ =>
    let E := fresh "Au" in destruct o eqn:E; [| discriminate H]; cbn [optZ_eqb] in H; apply Z.eqb_eq in H; subst end.
  pose proof (op_effect _ _ _ _ Hmt) as (_ & _ & _ & _ & E5 & E6 & _ & _).
  rewrite E5 in *.
  rewrite E6 in * by (match goal with H : a_owner (w pool) = PROGRAM_ID |- _ => rewrite H end; discriminate).
  do 8 eexists.
  split; [assumption |]. split; [reflexivity |]. split; [congruence |]. split; [reflexivity |].
  do 5 (split; [split; eassumption |]).
  do 4 (split; [congruence |]). split; [congruence |]. split; [assumption |].
  split; [assumption |].
  do 4 (split; [assumption |]). split; [assumption |]. split; [assumption |]. split; [congruence |].
  split.
  { unfold constraints_ok. destruct (constraints e) as [sc |]; [| exact I].
    destruct (sc_owner_key sc) as [ok |]; [| discriminate]. inv. bools. subst.
    split; [reflexivity |].
    unfold validate_curve_type in *. destruct (mem _ _) eqn:Em; [| discriminate]. apply mem_In in Em.
    split; [exact Em |].
    unfold constraints_validate_fees in *.
    match goal with H : (if ?b then _ else _) = Ok _ |- _ => destruct b eqn:Eb; [| discriminate] end.
    bools. cbv zeta. auto 10. }
  split; [assumption |]. split; [assumption |].
  split. { exists auth'. split; [exact Hpda |]. apply run_one. exact Hmt. }
  split; [assumption |]. split; [eassumption |]. reflexivity.
Qed.
