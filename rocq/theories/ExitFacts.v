(** What pool tokens of a constant-price pool are redeemed for. *)
From Verif Require Import Ints Tactics Fees LinearCurve ConstantPrice SwapCurve Codec Token Processor Api History
  Spec LedgerSpec TraceSpec QuoteSpec QuoteCurves CurveProps CreateFacts EffectFacts HistoryFacts VaultFacts LedgerPrice
  LedgerExamples HistoryExamples.

Lemma withdraw_all_pays e signers w accounts n ma mb w' s p : env_ok e -> reachable e w -> signers_ok e signers ->
  exec e signers w (WithdrawAll accounts n ma mb) = Ok w' -> pool_at w (nth 0 accounts 0) s -> st_curve s = ConstantPrice p ->
  let A := balance w (st_token_a s) in let B := balance w (st_token_b s) in
  let S := shares w s in let m := S - shares w' s in let V := worth w s p in
  0 < S /\ 0 < p /\ 0 <= m <= n /\
  balance w' (st_token_a s) = A - Z.min A (m * (V / 2) / S) /\
  balance w' (st_token_b s) = B - Z.min B (m * (V / 2) / (p * S)).
Proof.
  intros He R Sg H Hp Hl. pose proof (reachable_inv _ _ He R) as I. pose proof (price_config _ _ _ _ _ (proj2 I _ _ Hp) Hl) as (U & P).
  destruct (withdraw_all_vaults _ _ _ _ _ _ _ _ _ He I Sg H Hp) as (ch & a & b & Hn & Ch & A0 & B0 & Q & Ba & Bb & Su).
  cbv zeta in *. unfold shares in *. rewrite Hl in Q.
  pose proof (balance_u64 w (st_token_a s) (proj1 I)) as UA. pose proof (balance_u64 w (st_token_b s) (proj1 I)) as UB.
  pose proof (supply_u64 w (st_pool_mint s) (proj1 I)) as US.
  rewrite cprice_both in Q by (try assumption; unfold is_u64 in *; lia).
  rewrite Ba, Bb, Su. unfold worth.
  set (A := balance w (st_token_a s)) in *. set (B := balance w (st_token_b s)) in *. set (S := supply w (st_pool_mint s)) in *.
  replace (S - (S - (n - ch))) with (n - ch) by lia.
  unfold price_both_quote in Q. cbv zeta in Q.
  destruct (Z.eqb_spec S 0) as [E | NS]; [rewrite orb_true_r in Q; discriminate Q |].
  destruct ((_ || _) || _); [discriminate Q |]. injection Q as <- <-. unfold round_div. cbn beta iota.
  unfold is_u64 in *. rewrite Z.div_div by lia.
  split; [lia |]. split; [exact P |]. split; [lia |]. split; reflexivity.
Qed.

(** The arithmetic: what is paid falls short of the worth by what the vaults lack and rounding. *)
Lemma short_arith A B S m V p : 0 < S -> 0 < p -> 0 <= m <= S -> V = pool_value p A B -> 0 <= A -> 0 <= B ->
  let sa := m * (V / 2) / S in let sb := m * (V / 2) / (p * S) in
  let x := Z.min A sa in let y := Z.min B sb in
  (x + Z.max 0 (sa - A) + p * (y + Z.max 0 (sb - B))) * S <= m * V
    < (x + Z.max 0 (sa - A) + p * (y + Z.max 0 (sb - B)) + p + 2) * S.
Proof.
  intros HS Hp Hm EV HA HB sa sb x y. subst x y.
  replace (Z.min A sa + Z.max 0 (sa - A)) with sa by lia.
  replace (Z.min B sb + Z.max 0 (sb - B)) with sb by lia.
  assert (V0 : 0 <= V) by (subst V; unfold pool_value; nia).
  pose proof (Z.div_mod V 2 ltac:(lia)) as E2. pose proof (Z.mod_pos_bound V 2 ltac:(lia)).
  set (h := V / 2) in *. assert (0 <= h) by lia.
  assert (E3 : S * sa <= m * h < S * sa + S).
  { unfold sa. pose proof (Z.div_mod (m * h) S ltac:(lia)). pose proof (Z.mod_pos_bound (m * h) S ltac:(lia)). lia. }
  assert (E4 : (p * S) * sb <= m * h < (p * S) * sb + p * S).
  { unfold sb. pose proof (Z.div_mod (m * h) (p * S) ltac:(nia)). pose proof (Z.mod_pos_bound (m * h) (p * S) ltac:(nia)). lia. }
  assert (2 * (m * h) <= m * V <= 2 * (m * h) + S).
  { replace (m * V) with (2 * (m * h) + m * (V mod 2)) by (rewrite E2 at 2; ring). nia. }
  replace ((sa + p * sb) * S) with (S * sa + p * S * sb) by ring.
  replace ((sa + p * sb + p + 2) * S) with (S * sa + p * S * sb + p * S + 2 * S) by ring.
  lia.
Qed.

Lemma left_arith A B S p : 0 < S -> 0 < p -> 0 <= A -> 0 <= B ->
  let V := pool_value p A B in
  let A' := A - Z.min A (S * (V / 2) / S) in let B' := B - Z.min B (S * (V / 2) / (p * S)) in
  (p * B <= A -> A' = (A - p * B + 1) / 2 /\ B' = 0) /\
  (A <= p * B -> A' = 0 /\ B' = (p * B - A + 2 * p - 1) / (2 * p)).
Proof.
  intros HS Hp HA HB V. cbv zeta. rewrite (Z.mul_comm S), Z.div_mul by lia. rewrite (Z.mul_comm p S).
  replace (V / 2 * S) with (S * (V / 2)) by ring. rewrite Z.div_mul_cancel_l by lia.
  unfold V, pool_value. clear V S HS.
  pose proof (Z.div_mod (A + p * B) 2 ltac:(lia)). pose proof (Z.mod_pos_bound (A + p * B) 2 ltac:(lia)).
  set (h := (A + p * B) / 2) in *.
  pose proof (Z.div_mod h p ltac:(lia)). pose proof (Z.mod_pos_bound h p ltac:(lia)).
  set (k := h / p) in *.
  split; intros L.
  - split.
    + rewrite Z.min_r by lia. apply (Z.div_unique _ _ _ (1 - (A + p * B) mod 2)); lia.
    + rewrite Z.min_l; [lia |]. apply Z.div_le_lower_bound; lia.
  - split; [rewrite Z.min_l by lia; lia |].
    assert (K : k <= B) by (apply Z.lt_succ_r, Z.div_lt_upper_bound; lia).
    rewrite Z.min_r by lia.
    apply (Z.div_unique _ _ _ (2 * p - 1 - (2 * (h mod p) + (A + p * B) mod 2))); [left | ]; [lia |].
    nia.
Qed.

Lemma withdraw_all_worth e signers w accounts n ma mb w' s p : env_ok e -> reachable e w -> signers_ok e signers ->
  exec e signers w (WithdrawAll accounts n ma mb) = Ok w' -> pool_at w (nth 0 accounts 0) s -> st_curve s = ConstantPrice p ->
  let A := balance w (st_token_a s) in let B := balance w (st_token_b s) in
  let S := shares w s in let m := S - shares w' s in let V := worth w s p in
  let x := A - balance w' (st_token_a s) in let y := B - balance w' (st_token_b s) in
  let lack := Z.max 0 (m * (V / 2) / S - A) + p * Z.max 0 (m * (V / 2) / (p * S) - B) in
  0 <= m <= n /\
  x = Z.min A (m * (V / 2) / S) /\ y = Z.min B (m * (V / 2) / (p * S)) /\
  (pool_value p x y + lack) * S <= m * V < (pool_value p x y + lack + p + 2) * S.
Proof.
  intros He R Sg H Hp Hl A B S m V x y lack.
  destruct (withdraw_all_pays _ _ _ _ _ _ _ _ _ _ He R Sg H Hp Hl) as (S0 & P & M & Ea & Eb).
  fold A B in Ea, Eb. fold S in S0, M, Ea, Eb. fold m in M, Ea, Eb. fold V in Ea, Eb.
  pose proof (reachable_inv _ _ He R) as I.
  pose proof (balance_u64 w (st_token_a s) (proj1 I)) as UA. pose proof (balance_u64 w (st_token_b s) (proj1 I)) as UB.
  fold A in UA. fold B in UB. unfold is_u64 in UA, UB.
  assert (W' : world_wf w') by exact (proj1 (trade_keeps_pools _ _ _ _ _ (proj1 I) H (fun C => C))).
  pose proof (supply_u64 w' (st_pool_mint s) W') as US'. fold (shares w' s) in US'. unfold is_u64 in US'.
  assert (Ex : x = Z.min A (m * (V / 2) / S)) by (unfold x; lia).
  assert (Ey : y = Z.min B (m * (V / 2) / (p * S))) by (unfold y; lia).
  split; [exact M |]. split; [exact Ex |]. split; [exact Ey |].
  pose proof (short_arith A B S m V p S0 P ltac:(unfold m; lia) eq_refl (proj1 UA) (proj1 UB)) as K. cbv zeta in K.
  rewrite <- Ex, <- Ey in K. unfold pool_value, lack.
  match type of K with ?l * S <= _ < ?r * S => replace (x + p * y + (Z.max 0 (m * (V / 2) / S - A) + p * Z.max 0 (m * (V / 2) / (p * S) - B))) with l by ring;
    exact K end.
Qed.

Lemma withdraw_all_left e signers w accounts n ma mb w' s p : env_ok e -> reachable e w -> signers_ok e signers ->
  exec e signers w (WithdrawAll accounts n ma mb) = Ok w' -> pool_at w (nth 0 accounts 0) s -> st_curve s = ConstantPrice p ->
  shares w' s = 0 ->
  let A := balance w (st_token_a s) in let B := balance w (st_token_b s) in
  let A' := balance w' (st_token_a s) in let B' := balance w' (st_token_b s) in
  (p * B <= A -> A' = (A - p * B + 1) / 2 /\ B' = 0) /\
  (A <= p * B -> A' = 0 /\ B' = (p * B - A + 2 * p - 1) / (2 * p)).
Proof.
  intros He R Sg H Hp Hl Z0 A B A' B'.
  destruct (withdraw_all_pays _ _ _ _ _ _ _ _ _ _ He R Sg H Hp Hl) as (S0 & P & M & Ea & Eb).
  rewrite Z0, Z.sub_0_r in Ea, Eb. unfold A', B'. rewrite Ea, Eb. pose proof (reachable_inv _ _ He R) as I.
  pose proof (balance_u64 w (st_token_a s) (proj1 I)) as UA. pose proof (balance_u64 w (st_token_b s) (proj1 I)) as UB.
  exact (left_arith A B (shares w s) p S0 P (proj1 UA) (proj1 UB)).
Qed.

(** A constant-price pool (price 3, no fees) that holds 9000 A and no B.  User 901 holds all pool
    tokens, user 902 holds nothing. *)
Definition no_fees' : fees := mk_fees 0 0 0 0 0 0 0 0.
Definition exit_w0 : world := of_list
  [ (300, zeroed); (301, tok 201 (auth 300) 9000); (302, tok 202 (auth 300) 0); (403, a_mint (auth 300) 0);
    (303, tok 403 900 0); (304, tok 403 901 0); (305, tok 403 902 0);
    (111, tok 201 901 0); (112, tok 202 901 0); (113, tok 201 902 0); (201, a_mint 999 0); (202, a_mint 999 0) ].
Definition exit_init : instr :=
  InitConstantPrice [300; auth 300; 301; 302; 403; 303; 304; TOKEN_PROGRAM_ID] no_fees' 3.
Definition exit_w1 : world := run1 [300] exit_w0 exit_init.
Definition exit_all (n : Z) : instr :=
  WithdrawAll [300; auth 300; 901; 403; 304; 301; 302; 111; 112; 303; TOKEN_PROGRAM_ID] n 0 0.
Definition exit_w2 : world := run1 [901] exit_w1 (exit_all (10 ^ 9)).
Definition exit_enter : instr :=
  DepositSingle [300; auth 300; 902; 113; 301; 302; 403; 305; TOKEN_PROGRAM_ID] 0 0.
Definition exit_w3 : world := run1 [902] exit_w2 exit_enter.
Definition exit_take : instr :=
  WithdrawSingle [300; auth 300; 902; 403; 305; 301; 302; 113; 303; TOKEN_PROGRAM_ID] 4500 (10 ^ 9).
Definition exit_w4 : world := run1 [902] exit_w3 exit_take.


Definition exit_pool : swap_state :=
  mk_swap_state true 255 TOKEN_PROGRAM_ID 301 302 403 201 202 303 no_fees' (ConstantPrice 3).

Lemma exit_genesis : genesis_ok exit_w0.
Proof.
  split.
  - intros k. apply (of_list_all _ (fun _ a => account_wf a)); [intros ?; exact (Forall_nil _) |].
    repeat (apply Forall_cons; [| try apply Forall_nil]);
      cbn [snd]; unfold account_wf, zeroed, tok, a_mint; cbn [a_data]; unfold is_u64, u64_max, is_pubkey;
      try (cbn; vm_compute; intuition congruence).
    all: apply Forall_forall; intros x Hx; apply repeat_spec in Hx; subst; unfold is_u8; lia.
  - intros k. apply (of_list_all _ (fun _ a => a_owner a = PROGRAM_ID -> ~ versioned (a_data a))).
    + intros _ H. discriminate H.
    + repeat (apply Forall_cons; [| try apply Forall_nil]); cbn [snd]; intros H; try discriminate H; intros (l & E); discriminate E.
Qed.

Lemma exit_step1 : step ex_env exit_w0 (Instruction [300] exit_init) exit_w1.
Proof. apply ex_run; [apply ex_signers; lia | unfold exit_init; keys_ok | reflexivity | vm_compute; reflexivity]. Qed.
Lemma exit_reachable : reachable ex_env exit_w1.
Proof.
  apply (reachable_step _ exit_w0 (Instruction [300] exit_init)); [| apply exit_step1].
  exists exit_w0, []. split; [apply exit_genesis | constructor].
Qed.
Lemma exit_pool_at : pool_at exit_w1 300 exit_pool.
Proof. split; vm_compute; reflexivity. Qed.

Lemma ran signers w i : match exec ex_env signers w i with Ok _ => true | Err _ => false end = true ->
  exec ex_env signers w i = Ok (run1 signers w i).
Proof. unfold run1. destruct (exec ex_env signers w i); [reflexivity | discriminate]. Qed.

Lemma redeem_half : exists e signers w accounts n w' s p, env_ok e /\ reachable e w /\ signers_ok e signers /\
  exec e signers w (WithdrawAll accounts n 0 0) = Ok w' /\ pool_at w (nth 0 accounts 0) s /\ st_curve s = ConstantPrice p /\
  st_fees s = mk_fees 0 0 0 0 0 0 0 0 /\
  let S := shares w s in let m := S - shares w' s in let V := worth w s p in
  let paid := V - worth w' s p in
  m = n /\ 0 < m * V /\ paid * S = m * V / 2 /\ m * V mod 2 = 0.
Proof.
  exists ex_env, [901], exit_w1, [300; auth 300; 901; 403; 304; 301; 302; 111; 112; 303; TOKEN_PROGRAM_ID], (5 * 10 ^ 8),
    (run1 [901] exit_w1 (exit_all (5 * 10 ^ 8))), exit_pool, 3.
  split; [exact ex_env_ok |]. split; [exact exit_reachable |]. split; [apply ex_signers; lia |].
  split; [apply ran; vm_compute; reflexivity |]. split; [exact exit_pool_at |]. split; [reflexivity |]. split; [reflexivity |].
  vm_compute. repeat split; reflexivity.
Qed.

Lemma redeem_all : exists e signers w accounts n w' s p, env_ok e /\ reachable e w /\ signers_ok e signers /\
  exec e signers w (WithdrawAll accounts n 0 0) = Ok w' /\ pool_at w (nth 0 accounts 0) s /\ st_curve s = ConstantPrice p /\
  shares w' s = 0 /\ 0 < worth w s p /\ worth w' s p = worth w s p / 2.
Proof.
  exists ex_env, [901], exit_w1, [300; auth 300; 901; 403; 304; 301; 302; 111; 112; 303; TOKEN_PROGRAM_ID], (10 ^ 9),
    exit_w2, exit_pool, 3.
  split; [exact ex_env_ok |]. split; [exact exit_reachable |]. split; [apply ex_signers; lia |].
  split; [apply ran; vm_compute; reflexivity |]. split; [exact exit_pool_at |]. split; [reflexivity |].
  vm_compute. repeat split; reflexivity.
Qed.

Lemma stranger_takes : exists e holder stranger w i w1 accounts w2 i2 w3 s p own,
  env_ok e /\ reachable e w /\ signers_ok e [holder] /\ signers_ok e [stranger] /\ holder <> stranger /\
  pool_at w (named_pool i) s /\ st_curve s = ConstantPrice p /\
  exec e [holder] w i = Ok w1 /\ shares w1 s = 0 /\
  exec e [stranger] w1 (DepositSingle accounts 0 0) = Ok w2 /\
  exec e [stranger] w2 i2 = Ok w3 /\
  (exists t, token_at w own t /\ t_owner t = stranger /\ t_amount t = 0) /\
  0 < worth w1 s p /\ worth w3 s p = 0 /\ balance w3 own = worth w1 s p.
Proof.
  exists ex_env, 901, 902, exit_w1, (exit_all (10 ^ 9)), exit_w2, [300; auth 300; 902; 113; 301; 302; 403; 305; TOKEN_PROGRAM_ID],
    exit_w3, exit_take, exit_w4, exit_pool, 3, 113.
  split; [exact ex_env_ok |]. split; [exact exit_reachable |]. split; [apply ex_signers; lia |]. split; [apply ex_signers; lia |].
  split; [discriminate |]. split; [exact exit_pool_at |]. split; [reflexivity |].
  split; [apply ran; vm_compute; reflexivity |]. split; [vm_compute; reflexivity |].
  split; [apply (ran [902] exit_w2 exit_enter); vm_compute; reflexivity |].
  split; [apply (ran [902] exit_w3 exit_take); vm_compute; reflexivity |].
  split; [eexists; split; [split; vm_compute; reflexivity | split; reflexivity] |].
  vm_compute. repeat split; reflexivity.
Qed.
