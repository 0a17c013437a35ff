(** A run of the fuzz test to its end. *)
From Verif Require Import Ints Tactics SplMath Fees LinearCurve ConstantPrice SwapCurve Codec Token Processor Api History
  Spec LedgerSpec CallSpec WireSpec TotalSpec LiveSpec RequestSpec TraceSpec CurveFacts LinearFacts SwapFacts CurveProps CodecFacts TokenFacts ProcFacts
  AmountFacts EffectFacts TradeFacts CreateFacts PermFacts HistoryFacts LiquidityFacts VaultFacts LedgerPrice TotalFacts
  LinearProps RequestFacts RedeemAll LedgerExamples HistoryExamples Fuzz FuzzSpec FuzzState FuzzFacts.

(** The accounts of the test can be used as the program wants them. *)
Lemma in_a id : is_id id -> In (acc_a id) list_a.
Proof. intros H. right. right. apply in_ids. exact H. Qed.
Lemma in_b id : is_id id -> In (acc_b id) list_b.
Proof. intros H. right. right. apply in_ids. exact H. Qed.
Lemma in_p id : is_id id -> In (acc_p id) list_p.
Proof. intros H. right. right. apply in_ids. exact H. Qed.

Lemma holds_wallet w k o m : holds w k o m -> wallet w k o m (balance w k).
Proof.
  intros (t & T & O & M & D & C & F & N). exists t. rewrite (token_balance _ _ _ T), D. repeat split; try assumption; try apply T. discriminate.
Qed.
Lemma holds_payee w k o m : holds w k o m -> payee w k m.
Proof. intros (t & T & O & M & D & C & F & N). exists t. repeat split; try assumption; apply T. Qed.
Lemma holds_thawed w k o m : holds w k o m -> thawed w k.
Proof. intros (t & T & O & M & D & C & F & N). exists t. repeat split; try assumption; apply T. Qed.
Lemma holds_plain w k o m : holds w k o m -> forall t, token_at w k t -> t_native t = false.
Proof. intros (t & T & O & M & D & C & F & N) t' T'. rewrite (token_fun _ _ _ _ T' T). exact N. Qed.
Lemma holder_a id : is_id id -> holder (acc_a id) = 900.
Proof. intros H. unfold holder, acc_a, is_id in *. destruct (Z.eqb_spec (1000 + id) 301), (Z.eqb_spec (1000 + id) 302); try lia; reflexivity. Qed.
Lemma holder_b id : is_id id -> holder (acc_b id) = 900.
Proof. intros H. unfold holder, acc_b, is_id in *. destruct (Z.eqb_spec (2000 + id) 301), (Z.eqb_spec (2000 + id) 302); try lia; reflexivity. Qed.
Lemma user_a w id : fz w -> is_id id -> holds w (acc_a id) 900 201.
Proof. intros F H. rewrite <- (holder_a id H). apply (fz_a _ F), in_a, H. Qed.
Lemma user_b w id : fz w -> is_id id -> holds w (acc_b id) 900 202.
Proof. intros F H. rewrite <- (holder_b id H). apply (fz_b _ F), in_b, H. Qed.
Lemma user_p w id : fz w -> is_id id -> holds w (acc_p id) 900 403.
Proof. intros F H. apply (fz_p _ F), in_p, H. Qed.
Lemma user_on w d id : fz w -> is_id id -> holds w (acc_on d id) 900 (mint_on d fz_pool).
Proof. intros F H. destruct d; [apply user_a | apply user_b]; assumption. Qed.
Lemma fee_p w : fz w -> holds w 303 900 403.
Proof. intros F. apply (fz_p _ F). now left. Qed.
Lemma vault_a w : fz w -> holds w 301 (auth 300) 201.
Proof. intros F. apply (fz_a _ F 301). now left. Qed.
Lemma vault_b w : fz w -> holds w 302 (auth 300) 202.
Proof. intros F. apply (fz_b _ F 302). now left. Qed.
Lemma single_900 w : fz w -> single_signer w 900.
Proof. intros F (H & _). exact (fz_user _ F H). Qed.
Lemma single_auth w : fz w -> single_signer w (auth 300).
Proof. intros F (H & _). exact (fz_auth _ F H). Qed.
Lemma pda_300 : find_pda ex_env 300 = Some (auth 300, st_bump_seed fz_pool).
Proof. vm_compute. reflexivity. Qed.

(** The instructions sent. *)
Lemma avoid_u64 n : is_u64 n -> is_u64 (avoid_one n).
Proof. unfold avoid_one, is_u64, u64_max. destruct (n =? 1); lia. Qed.
Lemma leave_u64 w k n : world_wf w -> is_u64 n -> is_u64 (leave_none (balance w k) n).
Proof. intros W U. unfold leave_none. destruct (_ =? _); [apply balance_u64; exact W | exact U]. Qed.
Lemma least_u64 n : is_u64 n -> is_u64 (at_least_two n).
Proof. unfold at_least_two, is_u64, u64_max. destruct (n <? 2); lia. Qed.

Ltac pubkey := match goal with
  | H : forall id, is_id id -> is_pubkey (acc_a id) /\ _ |- is_pubkey (acc_a _) => apply H; tauto
  | H : forall id, is_id id -> is_pubkey (acc_a id) /\ _ |- is_pubkey (acc_b _) => apply H; tauto
  | H : forall id, is_id id -> is_pubkey (acc_a id) /\ _ |- is_pubkey (acc_p _) => apply H; tauto
  | H : is_pubkey ?k |- is_pubkey ?k => exact H
  end.
Ltac listed := match goal with
  | H : In ?k _ |- In ?k _ => exact H
  | H : forall id, is_id id -> In (acc_a id) _ |- In (acc_a _) _ => apply H; tauto
  | H : forall id, is_id id -> In (acc_b id) _ |- In (acc_b _) _ => apply H; tauto
  | H : forall id, is_id id -> In (acc_p id) _ |- In (acc_p _) _ => apply H; tauto
  end.
Lemma call_keys w i : fuzz_ok i -> let j := fuzz_call w i in
  ~ creates j /\ Forall is_pubkey (instr_accounts j) /\ incl (must_write j) list_all /\ mint_named j = 403.
Proof.
  intros H j.
  assert (P : forall id, is_id id -> is_pubkey (acc_a id) /\ is_pubkey (acc_b id) /\ is_pubkey (acc_p id)).
  { unfold is_id, acc_a, acc_b, acc_p, is_pubkey. intros id Hi. assert (4000 <= 2 ^ 256) by (vm_compute; discriminate). lia. }
  assert (C : is_pubkey 300 /\ is_pubkey (auth 300) /\ is_pubkey 900 /\ is_pubkey 301 /\ is_pubkey 302 /\ is_pubkey 303 /\
    is_pubkey 304 /\ is_pubkey 403 /\ is_pubkey TOKEN_PROGRAM_ID) by (vm_compute; intuition congruence).
  destruct C as (C1 & C2 & C3 & C4 & C5 & C6 & C7 & C8 & C9).
  assert (IA : forall id, is_id id -> In (acc_a id) list_all).
  { intros id Hi. right. apply in_or_app. left. apply in_a, Hi. }
  assert (IB : forall id, is_id id -> In (acc_b id) list_all).
  { intros id Hi. right. apply in_or_app. right. apply in_or_app. left. apply in_b, Hi. }
  assert (IP : forall id, is_id id -> In (acc_p id) list_all).
  { intros id Hi. right. apply in_or_app. right. apply in_or_app. right. apply in_p, Hi. }
  assert (I1 : In 301 list_all) by (right; apply in_or_app; left; now left).
  assert (I2 : In 302 list_all) by (right; apply in_or_app; right; apply in_or_app; left; now left).
  assert (I3 : In 303 list_all) by (right; apply in_or_app; right; apply in_or_app; right; now left).
  assert (I4 : In 403 list_all) by now left.
  generalize dependent list_all. intros all IA IB IP I1 I2 I3 I4.
  split; [destruct i as [? ? [] | | | |]; exact (fun x => x) |].
  unfold j. destruct i as [a b [] n m | a b p n x y | a b p n x y | t [] p n m | t [] p n m]; cbn [fuzz_ok] in H;
    cbn [fuzz_call instr_accounts must_write mint_named nth acc_on];
    (split; [| split; [| reflexivity]]).
  all: try (repeat (apply Forall_cons; [pubkey |]); apply Forall_nil).
  all: intros k Hk; cbn [In] in Hk;
    repeat (destruct Hk as [<- | Hk]; [listed |]); destruct Hk.
Qed.

Lemma run_value V sup x : fuzz_price <= V -> is_u64 sup -> is_u64 x -> forall d, ~ u128_max * V < sup * value_of fuzz_price x d.
Proof.
  intros H S X d L. unfold value_of in L. unfold is_u64, fuzz_price, u64_max, u128_max in *.
  assert (sup * x <= 18446744073709551615 * 18446744073709551615) by (apply Z.mul_le_mono_nonneg; lia).
  destruct d; lia.
Qed.

Lemma call_error w i e : fz w -> fuzz_ok i -> fuzz_price <= pool_worth w ->
  exec ex_env [900] w (fuzz_call w i) = Err e -> tolerated e = true.
Proof.
  intros F H V E. pose proof (proj1 (fz_inv _ F)) as W.
  assert (In900 : In 900 [900]) by now left.
  pose proof (single_900 _ F) as SU. pose proof (single_auth _ F) as SA.
  pose proof (holds_thawed _ _ _ _ (vault_a _ F)) as TA. pose proof (holds_thawed _ _ _ _ (vault_b _ F)) as TB.
  assert (N1 : 403 <> 201) by discriminate. assert (N2 : 403 <> 202) by discriminate.
  destruct i as [a b d n m | a b p n x y | a b p n x y | t d p n m | t d p n m]; cbn [fuzz_ok] in H; cbn [fuzz_call] in E.
  - destruct H as (Ia & Ib & Un & Um).
    assert (FP : feeless (st_fees fz_pool) \/ 403 <> 201 /\ 403 <> 202 /\ payee w 303 403 /\ (forall t, token_at w 303 t -> t_native t = false)).
    { right. repeat split; try discriminate; [eapply holds_payee | eapply holds_plain]; apply fee_p; exact F. }
    destruct d.
    + pose proof (swap_request ex_env [900] w 300 (auth 300) fz_pool 900 (acc_a a) 301 302 (acc_b b) [304] n m (balance w (acc_a a))
        ex_env_ok (fz_reach _ F) signers_900 (fz_state _ F) pda_300 Un Um In900 SU SA (or_introl (conj eq_refl eq_refl)) TA TB
        (holds_wallet _ _ _ _ (user_a _ _ F Ia)) (holds_payee _ _ _ _ (user_b _ _ F Ib)) ltac:(unfold acc_b, is_id in *; lia) FP) as R.
      cbv zeta in R. cbn [st_pool_mint st_pool_fee_account fz_pool] in R. rewrite E in R.
      destruct e as [[] | | | | | | | | |]; try reflexivity; try contradiction; destruct R as (l & k & Q & _); discriminate Q.
    + pose proof (swap_request ex_env [900] w 300 (auth 300) fz_pool 900 (acc_b b) 302 301 (acc_a a) [304] n m (balance w (acc_b b))
        ex_env_ok (fz_reach _ F) signers_900 (fz_state _ F) pda_300 Un Um In900 SU SA (or_intror (conj eq_refl eq_refl)) TB TA
        (holds_wallet _ _ _ _ (user_b _ _ F Ib)) (holds_payee _ _ _ _ (user_a _ _ F Ia)) ltac:(unfold acc_a, is_id in *; lia) FP) as R.
      cbv zeta in R. cbn [st_pool_mint st_pool_fee_account fz_pool] in R. rewrite E in R.
      destruct e as [[] | | | | | | | | |]; try reflexivity; try contradiction; destruct R as (l & k & Q & _); discriminate Q.
  - destruct H as (Ia & Ib & Ip & Un & Ux & Uy).
    pose proof (deposit_all_request ex_env [900] w 300 (auth 300) fz_pool 900 (acc_a a) (acc_b b) (acc_p p) [] (avoid_one n) x y (balance w (acc_a a)) (balance w (acc_b b))
        ex_env_ok (fz_reach _ F) signers_900 (fz_state _ F) pda_300 (avoid_u64 _ Un) Ux Uy In900 SU SA TA TB
        (holds_wallet _ _ _ _ (user_a _ _ F Ia)) (holds_wallet _ _ _ _ (user_b _ _ F Ib)) (holds_payee _ _ _ _ (user_p _ _ F Ip))
        (holds_plain _ _ _ _ (user_p _ _ F Ip)) N1 N2) as R.
    cbv zeta in R. cbn [st_pool_mint st_pool_fee_account st_token_a st_token_b fz_pool] in R. rewrite E in R.
    destruct e as [[] | | | | | | | | |]; try reflexivity; contradiction.
  - destruct H as (Ia & Ib & Ip & Un & Ux & Uy).
    pose proof (withdraw_all_request ex_env [900] w 300 (auth 300) fz_pool 900 (acc_p p) (acc_a a) (acc_b b) [] (leave_none (balance w (acc_p p)) n) x y (balance w (acc_p p))
        ex_env_ok (fz_reach _ F) signers_900 (fz_state _ F) pda_300 (leave_u64 _ _ _ W Un) Ux Uy In900 SU SA TA TB
        (holds_wallet _ _ _ _ (user_p _ _ F Ip)) (holds_plain _ _ _ _ (user_p _ _ F Ip))
        (holds_payee _ _ _ _ (user_a _ _ F Ia)) (holds_payee _ _ _ _ (user_b _ _ F Ib))
        ltac:(change (acc_a a <> 301); unfold acc_a, is_id in *; lia) ltac:(change (acc_b b <> 302); unfold acc_b, is_id in *; lia) (holds_payee _ _ _ _ (fee_p _ F)) N1 N2) as R.
    cbv zeta in R. cbn [st_pool_mint st_pool_fee_account st_token_a st_token_b fz_pool] in R. rewrite E in R.
    destruct e as [[] | | | | | | | | |]; try reflexivity; contradiction.
  - destruct H as (It & Ip & Un & Um).
    pose proof (deposit_single_request ex_env [900] w 300 (auth 300) fz_pool d 900 (acc_on d t) (acc_p p) [] n (at_least_two m) (balance w (acc_on d t))
        ex_env_ok (fz_reach _ F) signers_900 (fz_state _ F) pda_300 Un (least_u64 _ Um) In900 SU SA ltac:(destruct d; assumption)
        (holds_wallet _ _ _ _ (user_on _ d _ F It)) ltac:(destruct d; assumption) (holds_payee _ _ _ _ (user_p _ _ F Ip))
        (holds_plain _ _ _ _ (user_p _ _ F Ip))) as R.
    cbv zeta in R. cbn [st_pool_mint st_pool_fee_account st_token_a st_token_b fz_pool] in R. rewrite E in R.
    destruct e as [[] | | | | | | | | |]; try reflexivity; try contradiction.
    destruct R as (q & Q & L). injection Q as <-. exfalso. exact (run_value _ _ _ V (supply_u64 _ _ W) Un _ L).
  - destruct H as (It & Ip & Un & Um).
    pose proof (withdraw_single_request ex_env [900] w 300 (auth 300) fz_pool d 900 (acc_p p) (acc_on d t) [] n (leave_none (balance w (acc_p p)) m) (balance w (acc_p p))
        ex_env_ok (fz_reach _ F) signers_900 (fz_state _ F) pda_300 Un (leave_u64 _ _ _ W Um) In900 SU SA ltac:(destruct d; assumption)
        (holds_payee _ _ _ _ (user_on _ d _ F It)) ltac:(destruct d; [change (acc_a t <> 301) | change (acc_b t <> 302)]; unfold acc_a, acc_b, is_id in *; lia)
        (holds_wallet _ _ _ _ (user_p _ _ F Ip)) (holds_plain _ _ _ _ (user_p _ _ F Ip)) ltac:(destruct d; assumption)
        (holds_payee _ _ _ _ (fee_p _ F))) as R.
    cbv zeta in R. cbn [st_pool_mint st_pool_fee_account st_token_a st_token_b fz_pool] in R. rewrite E in R.
    destruct e as [[] | | | | | | | | |]; try reflexivity; try contradiction.
    destruct R as (q & Q & L). injection Q as <-. exfalso. exact (run_value _ _ _ V (supply_u64 _ _ W) Un _ L).
Qed.

Lemma call_kept w i w' : fz w -> fuzz_ok i -> 0 < supply w 403 -> exec ex_env [900] w (fuzz_call w i) = Ok w' -> fz w' /\ kept_share w w'.
Proof.
  intros F H S0 E. destruct (call_keys w i H) as (K1 & K2 & K3 & K4).
  pose proof (fz_step _ _ _ F E K1 K2 K3 K4) as F'. split; [exact F' |].
  destruct i as [a b d n m | a b p n x y | a b p n x y | t d p n m | t d p n m]; cbn [fuzz_ok] in H.
  - eapply swap_kept with (a := a) (b := b); eauto; tauto.
  - eapply deposit_all_kept with (a := a) (b := b) (q := p); eauto; tauto.
  - eapply withdraw_all_kept with (a := a) (b := b) (q := p); eauto; tauto.
  - eapply deposit_single_kept with (t := t) (q := p); eauto; tauto.
  - eapply withdraw_single_kept with (t := t) (q := p); eauto; tauto.
Qed.

Lemma fuzz_step_ok w i : fz w -> fuzz_ok i -> 0 < supply w 403 -> fuzz_price <= pool_worth w ->
  exists w', fuzz_step w i = Some w' /\ fz w' /\ (w' = w \/ kept_share w w').
Proof.
  intros F H S0 V. unfold fuzz_step. destruct (exec ex_env [900] w (fuzz_call w i)) as [w' | e] eqn:E.
  - exists w'. destruct (call_kept _ _ _ F H S0 E). auto.
  - rewrite (call_error _ _ _ F H V E). exists w. auto.
Qed.
