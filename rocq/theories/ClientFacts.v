(** Facts about the client library. *)
From Verif Require Import Ints Tactics Fees LinearCurve SwapCurve Codec Token Processor Api History Entry Client
  Spec LedgerSpec WireSpec ClientSpec CodecFacts EffectFacts CreateFacts HistoryFacts EntryFacts.

(** ** Numbers *)
Lemma digits_pad fuel : forall x n, 0 <= x < 256 ^ Z.of_nat n -> (0 < n)%nat -> x < 2 ^ Z.of_nat fuel -> (0 < fuel)%nat ->
  let b := digits256 fuel x in (length b <= n)%nat /\ b ++ repeat 0 (n - length b) = to_le n x.
Proof.
  induction fuel as [| fuel IH]; intros x n Hx Hn Hf H0; [lia |]. cbv zeta. cbn [digits256].
  destruct n as [| n]; [lia |]. destruct (Z.ltb_spec x 256) as [L | L].
  - cbn [length app to_le]. split; [lia |]. rewrite Z.mod_small, Z.div_small by lia.
    replace (S n - 1)%nat with n by lia. f_equal.
    clear. induction n as [| n IH]; [reflexivity |]. cbn [repeat to_le]. rewrite Z.mod_0_l, Z.div_0_l by lia. now f_equal.
  - assert (P : 256 ^ Z.of_nat (S n) = 256 * 256 ^ Z.of_nat n) by (rewrite Nat2Z.inj_succ, Z.pow_succ_r by lia; reflexivity).
    assert (Q : 2 ^ Z.of_nat (S fuel) = 2 * 2 ^ Z.of_nat fuel) by (rewrite Nat2Z.inj_succ, Z.pow_succ_r by lia; reflexivity).
    assert (N0 : (0 < n)%nat).
    { destruct n; [| lia]. change (256 ^ Z.of_nat 1) with 256 in Hx. lia. }
    assert (F0 : (0 < fuel)%nat).
    { destruct fuel; [| lia]. change (2 ^ Z.of_nat 1) with 2 in Hf. lia. }
    assert (D : 0 <= x / 256 < 256 ^ Z.of_nat n).
    { split; [apply Z.div_pos; lia |]. apply Z.div_lt_upper_bound; lia. }
    assert (D2 : x / 256 < 2 ^ Z.of_nat fuel).
    { apply Z.div_lt_upper_bound; lia. }
    destruct (IH _ _ D N0 D2 F0) as (A & B). cbv zeta in A, B.
    cbn [length app to_le]. split; [lia |]. f_equal. exact B.
Qed.
Lemma digits_long fuel : forall x n, 256 ^ Z.of_nat n <= x -> x < 2 ^ Z.of_nat fuel -> (n < length (digits256 fuel x))%nat.
Proof.
  induction fuel as [| fuel IH]; intros x n Hx Hf.
  - change (2 ^ Z.of_nat 0) with 1 in Hf. assert (0 < 256 ^ Z.of_nat n) by (apply Z.pow_pos_nonneg; lia). lia.
  - cbn [digits256]. destruct n as [| n].
    + destruct (x <? 256); cbn [length]; lia.
    + assert (P : 256 ^ Z.of_nat (S n) = 256 * 256 ^ Z.of_nat n) by (rewrite Nat2Z.inj_succ, Z.pow_succ_r by lia; reflexivity).
      assert (Q : 2 ^ Z.of_nat (S fuel) = 2 * 2 ^ Z.of_nat fuel) by (rewrite Nat2Z.inj_succ, Z.pow_succ_r by lia; reflexivity).
      assert (0 < 256 ^ Z.of_nat n) by (apply Z.pow_pos_nonneg; lia).
      destruct (Z.ltb_spec x 256); [lia |]. cbn [length]. apply -> Nat.succ_lt_mono. apply IH.
      * apply Z.div_le_lower_bound; lia.
      * apply Z.div_lt_upper_bound; lia.
Qed.
Lemma log2_fuel x : 0 <= x -> x < 2 ^ Z.of_nat (S (Z.to_nat (Z.log2 x))).
Proof.
  intros H. rewrite Nat2Z.inj_succ, Z2Nat.id by apply Z.log2_nonneg.
  destruct (Z.eq_dec x 0) as [-> | N]; [reflexivity |]. apply Z.log2_spec. lia.
Qed.

Lemma to_buffer_spec x : to_buffer x = if Z.abs x <=? u64_max then Some (le64 (Z.abs x)) else None.
Proof.
  unfold to_buffer, bn_bytes. set (b := digits256 _ _).
  assert (A := Z.abs_nonneg x). assert (F := log2_fuel _ A).
  destruct (Z.leb_spec (Z.abs x) u64_max) as [L | L].
  - assert (B : 0 <= Z.abs x < 256 ^ Z.of_nat 8).
    { change (256 ^ Z.of_nat 8) with 18446744073709551616. unfold u64_max in L. lia. }
    destruct (digits_pad _ (Z.abs x) 8 B ltac:(lia) F ltac:(lia)) as (P & Q). cbv zeta in P, Q. fold b in P, Q. rewrite le64_to_le.
    destruct (Nat.eqb_spec (length b) 8) as [E | N].
    + rewrite <- Q, E, Nat.sub_diag. cbn [repeat]. now rewrite app_nil_r.
    + destruct (Nat.ltb_spec (length b) 8); [now rewrite Q | lia].
  - assert (P : (8 < length b)%nat).
    { apply digits_long; [| exact F]. change (256 ^ Z.of_nat 8) with 18446744073709551616. unfold u64_max in L. lia. }
    destruct (Nat.eqb_spec (length b) 8); [lia |]. destruct (Nat.ltb_spec (length b) 8); [lia | reflexivity].
Qed.
Lemma to_buffer_some x b : to_buffer x = Some b -> is_u64 (Z.abs x) /\ b = le64 (Z.abs x).
Proof.
  rewrite to_buffer_spec. destruct (Z.leb_spec (Z.abs x) u64_max); [| discriminate]. intros E. injection E as <-.
  split; [split; lia | reflexivity].
Qed.

Lemma fold_from_le l : fold_left (fun acc i => 256 * acc + i) (rev l) 0 = from_le l.
Proof.
  rewrite fold_left_rev_right || rewrite <- fold_left_rev_right. rewrite rev_involutive.
  induction l as [| b l IH]; [reflexivity |]. cbn [fold_right from_le]. rewrite IH. lia.
Qed.
Lemma from_buffer_ok l : length l = 8%nat -> from_buffer l = Some (from_le l).
Proof. intros H. unfold from_buffer. rewrite H. cbn [Nat.eqb]. now rewrite fold_from_le. Qed.
Lemma from_to_buffer x b : to_buffer x = Some b -> from_buffer b = Some (Z.abs x).
Proof.
  intros H. apply to_buffer_some in H. destruct H as (U & ->). rewrite le64_to_le, from_buffer_ok by apply to_le_length.
  now rewrite u64_le.
Qed.

(** ** Instructions *)
Lemma some_inj A (x y : A) : Some x = Some y -> x = y. Proof. congruence. Qed.
Ltac opt H :=
  repeat lazymatch type of H with
  | bind_opt ?o _ = Some _ =>
      let E := fresh "E" in destruct o eqn:E; cbn [bind_opt] in H;
      [apply to_buffer_some in E; destruct E as [? ->] | discriminate]
  | Some _ = Some ?c => apply some_inj in H; subst c
  end.

Lemma never_understood c : client_made c -> forall accounts, decode accounts (ci_data c) = Err ERuntime.
Proof.
  intros H accounts.
  assert (T : exists b l, ci_data c = b :: l /\ 0 <= b <= 5).
  { unfold client_made in H. decompose [or ex] H; clear H;
    match goal with H : ?f = Some c |- _ => rename H into M end.
    all: unfold create_init_swap_instruction, swap_instruction, deposit_all_instruction, withdraw_all_instruction,
      deposit_single_instruction, withdraw_single_instruction in M; opt M; cbn [ci_data app];
      eexists; eexists; split; [reflexivity | lia]. }
  destruct T as (b & l & E & B). rewrite E. unfold decode.
  destruct (Nat.ltb_spec (length (b :: l)) 8); [reflexivity |].
  destruct (find _ entry_points) as [ep |] eqn:F; [| reflexivity].
  destruct (find_nth _ _ no_entry _ F) as (n & Ln & <- & P). apply bytes_eqb_iff in P. exfalso.
  change (length entry_points) with 7%nat in Ln.
  assert (Q : ep_tag (nth n entry_points no_entry) = nth n tags []).
  { rewrite <- tags_ok. change [] with (ep_tag no_entry). symmetry. apply map_nth. }
  rewrite Q in P. clear Q F. cbn [firstn] in P.
  do 7 (destruct n as [| n]; [cbn [nth tags] in P; injection P; intros; lia |]). lia.
Qed.
Lemma never_accepted c e w signers writable accounts : client_made c ->
  entry e w (mk_transaction signers writable accounts (ci_data c)) = Err ERuntime.
Proof. intros H. unfold entry. cbn [tx_accounts tx_data]. now rewrite never_understood. Qed.

Lemma entry_reads e w signers writable accounts data i :
  decode accounts data = Ok i -> (account_count i <= length accounts)%nat ->
  Forall (fun n => In (nth n accounts 0) writable) (mut_positions i) ->
  entry e w (mk_transaction signers writable accounts data) = exec e signers w i.
Proof.
  intros D L F. unfold entry. cbn [tx_accounts tx_data tx_writable tx_signers]. rewrite D. cbn [rbind].
  destruct (Nat.ltb_spec (length accounts) (account_count i)); [lia |]. cbn [guard rbind].
  replace (forallb _ _) with true; [reflexivity |]. symmetry. apply forallb_forall. intros n Hn.
  rewrite Forall_forall in F. specialize (F n Hn). unfold mem. apply existsb_exists. exists (nth n accounts 0).
  split; [exact F | apply Z.eqb_refl].
Qed.

Lemma le64_u8 x : length (le64 x) = 8%nat. Proof. reflexivity. Qed.

Ltac in_list := cbn [In]; repeat (first [left; reflexivity | right]).
Ltac retag i :=
  unfold call_of, retagged; cbn [tx_signers tx_writable tx_accounts tx_data ci_keys ci_data];
  apply entry_reads;
  [ replace (firstn 8 (wire i) ++ tl _) with (wire i ++ []);
    [ match goal with |- decode ?a _ = _ => change a with (instr_accounts i) end; apply decode_wire;
      cbn [instr_args]; repeat (constructor; try assumption)
    | rewrite app_nil_r; reflexivity ]
  | cbn; lia
  | cbn [mut_positions map pubkey filter is_writable app nth ro rw sg];
    repeat (constructor; [in_list |]); constructor ].

Lemma swap_retagged pool authority user src vin vout dst mint fee host sp tp n m c e w payer others :
  swap_instruction pool authority user src vin vout dst mint fee host sp tp n m = Some c ->
  let i := Swap ([pool; authority; user; src; vin; vout; dst; mint; fee; tp] ++
                 match host with Some h => [h] | None => [] end) (Z.abs n) (Z.abs m) in
  entry e w (retagged i (call_of payer others c)) = exec e (payer :: others ++ [user]) w i.
Proof.
  intros M i. unfold swap_instruction in M. opt M. subst i. destruct host as [h |].
  - retag (Swap [pool; authority; user; src; vin; vout; dst; mint; fee; tp; h] (Z.abs n) (Z.abs m)).
  - retag (Swap [pool; authority; user; src; vin; vout; dst; mint; fee; tp] (Z.abs n) (Z.abs m)).
Qed.
Lemma deposit_all_retagged pool authority user sa sb va vb mint dest sp tp n a b c e w payer others :
  deposit_all_instruction pool authority user sa sb va vb mint dest sp tp n a b = Some c ->
  let i := DepositAll [pool; authority; user; sa; sb; va; vb; mint; dest; tp] (Z.abs n) (Z.abs a) (Z.abs b) in
  entry e w (retagged i (call_of payer others c)) = exec e (payer :: others ++ [user]) w i.
Proof.
  intros M i. unfold deposit_all_instruction in M. opt M. subst i.
  retag (DepositAll [pool; authority; user; sa; sb; va; vb; mint; dest; tp] (Z.abs n) (Z.abs a) (Z.abs b)).
Qed.
Lemma withdraw_all_retagged pool authority user mint fee src va vb da db sp tp n a b c e w payer others :
  withdraw_all_instruction pool authority user mint fee src va vb da db sp tp n a b = Some c ->
  let i := WithdrawAll [pool; authority; user; mint; src; va; vb; da; db; fee; tp] (Z.abs n) (Z.abs a) (Z.abs b) in
  entry e w (retagged i (call_of payer others c)) = exec e (payer :: others ++ [user]) w i.
Proof.
  intros M i. unfold withdraw_all_instruction in M. opt M. subst i.
  retag (WithdrawAll [pool; authority; user; mint; src; va; vb; da; db; fee; tp] (Z.abs n) (Z.abs a) (Z.abs b)).
Qed.
Lemma deposit_single_retagged pool authority user src va vb mint dest sp tp n m c e w payer others :
  deposit_single_instruction pool authority user src va vb mint dest sp tp n m = Some c ->
  let i := DepositSingle [pool; authority; user; src; va; vb; mint; dest; tp] (Z.abs n) (Z.abs m) in
  entry e w (retagged i (call_of payer others c)) = exec e (payer :: others ++ [user]) w i.
Proof.
  intros M i. unfold deposit_single_instruction in M. opt M. subst i.
  retag (DepositSingle [pool; authority; user; src; va; vb; mint; dest; tp] (Z.abs n) (Z.abs m)).
Qed.
Lemma withdraw_single_retagged pool authority user mint fee src va vb dst sp tp n m c e w payer others :
  withdraw_single_instruction pool authority user mint fee src va vb dst sp tp n m = Some c ->
  let i := WithdrawSingle [pool; authority; user; mint; src; va; vb; dst; fee; tp] (Z.abs n) (Z.abs m) in
  entry e w (retagged i (call_of payer others c)) = exec e (payer :: others ++ [user]) w i.
Proof.
  intros M i. unfold withdraw_single_instruction in M. opt M. subst i.
  retag (WithdrawSingle [pool; authority; user; mint; src; va; vb; dst; fee; tp] (Z.abs n) (Z.abs m)).
Qed.

(** Creation: the byte for the curve type stands in the way of the price. *)
Lemma le64_shift kind p : is_u8 kind -> is_u64 p ->
  le64 (kind + 256 * (p mod 2 ^ 56)) ++ [p / 2 ^ 56] = kind :: le64 p.
Proof.
  intros K P. unfold is_u8, is_u64, u64_max in *. set (q := p mod 2 ^ 56).
  assert (Q : 0 <= q < 2 ^ 56) by (apply Z.mod_pos_bound; lia).
  assert (E : p = 2 ^ 56 * (p / 2 ^ 56) + q) by (apply Z.div_mod; lia).
  assert (T : 0 <= p / 2 ^ 56 < 256) by (split; [apply Z.div_pos; lia | apply Z.div_lt_upper_bound; lia]).
  rewrite !le64_to_le. cbn [to_le app].
  assert (D : forall n, 0 <= n -> (kind + 256 * q) / 256 = q) by (intros; rewrite Z.mul_comm, Z.div_add, Z.div_small by lia; lia).
  rewrite (D 0) by lia. rewrite (Z.mul_comm 256 q), Z.mod_add, (Z.mod_small kind) by lia.
  f_equal. rewrite !Z.div_div by lia.
  assert (M : forall k, 0 <= k < 7 -> q / 256 ^ k mod 256 = p / 256 ^ k mod 256).
  { intros k Hk. assert (0 < 256 ^ k) by (apply Z.pow_pos_nonneg; lia).
    assert (R : p = q + (256 ^ (6 - k) * (p / 2 ^ 56) * 256) * 256 ^ k).
    { rewrite E at 1. replace (2 ^ 56) with (256 ^ (6 - k) * 256 * 256 ^ k) at 1; [ring |].
      change (2 ^ 56) with (256 ^ 7). change 256 with (256 ^ 1) at 2. rewrite <- !Z.pow_add_r by lia. f_equal. lia. }
    rewrite R, Z.div_add, Z.mod_add by lia. reflexivity. }
  pose proof (M 0 ltac:(lia)) as M0. pose proof (M 1 ltac:(lia)) as M1. pose proof (M 2 ltac:(lia)) as M2.
  pose proof (M 3 ltac:(lia)) as M3. pose proof (M 4 ltac:(lia)) as M4. pose proof (M 5 ltac:(lia)) as M5.
  pose proof (M 6 ltac:(lia)) as M6. clear M D.
  change (256 ^ 0) with 1 in M0. rewrite !Z.div_1_r in M0. change (256 ^ 1) with 256 in M1.
  rewrite M0, M1. change (256 * 256) with (256 ^ 2). rewrite M2. change (256 ^ 2 * 256) with (256 ^ 3). rewrite M3.
  change (256 ^ 3 * 256) with (256 ^ 4). rewrite M4. change (256 ^ 4 * 256) with (256 ^ 5). rewrite M5.
  change (256 ^ 5 * 256) with (256 ^ 6). rewrite M6. change (256 ^ 6 * 256) with (2 ^ 56).
  rewrite (Z.mod_small (p / 2 ^ 56)) by lia. reflexivity.
Qed.

Lemma init_retagged pool authority a b mint fee dest tp sp f kind p c e w payer others :
  create_init_swap_instruction pool authority a b mint fee dest tp sp f kind p = Some c ->
  fees_wf f -> is_u8 kind ->
  let i := InitConstantPrice [pool; authority; a; b; mint; fee; dest; tp] f (kind + 256 * (Z.abs p mod 2 ^ 56)) in
  entry e w (retagged i (call_of payer others c)) = exec e (payer :: others) w i.
Proof.
  intros M Hf K i. unfold create_init_swap_instruction in M. opt M. subst i.
  unfold call_of, retagged; cbn [tx_signers tx_writable tx_accounts tx_data ci_keys ci_data].
  replace (others ++ map pubkey _) with others by (symmetry; apply app_nil_r).
  set (i := InitConstantPrice _ f _). apply entry_reads.
  - replace (firstn 8 (wire i) ++ tl _) with (wire i ++ [Z.abs p / 2 ^ 56] ++ repeat 0 24).
    + match goal with |- decode ?a _ = _ => change a with (instr_accounts i) end. apply decode_wire.
      unfold i. cbn [instr_args]. destruct Hf as (? & ? & ? & ? & ? & ? & ? & ?).
      repeat (constructor; try assumption). 
      * unfold is_u8 in K. pose proof (Z.mod_pos_bound (Z.abs p) (2 ^ 56)). lia.
      * unfold is_u8 in K. pose proof (Z.mod_pos_bound (Z.abs p) (2 ^ 56)). unfold u64_max. lia.
    + assert (LS : to_le 8 (kind + 256 * (Z.abs p mod 2 ^ 56)) ++ [Z.abs p / 2 ^ 56] ++ repeat 0 24
                   = [kind] ++ to_le 8 (Z.abs p) ++ repeat 0 24).
      { rewrite <- !le64_to_le, app_assoc, le64_shift by assumption. reflexivity. }
      unfold i. cbn [wire]. rewrite !le64_to_le, <- !app_assoc, LS. reflexivity.
  - cbn. lia.
  - unfold i. cbn [mut_positions map pubkey filter is_writable app nth ro rw sg].
    repeat (constructor; [in_list |]). constructor.
Qed.
Lemma init_price_right p : is_u64 p -> 1 + 256 * (p mod 2 ^ 56) = p <-> p = 72340172838076673.
Proof.
  intros P. unfold is_u64, u64_max in P. split; [| intros ->; reflexivity]. intros H.
  pose proof (Z.div_mod p (2 ^ 56) ltac:(lia)) as D. pose proof (Z.mod_pos_bound p (2 ^ 56) ltac:(lia)) as B.
  set (q := p mod 2 ^ 56) in *. set (h := p / 2 ^ 56) in *. clearbody q h. lia.
Qed.

(** ** Loading pools *)
Lemma load_pool e w k s : reachable e w -> env_ok e -> pool_at w k s ->
  exists authority, create_pda e k (st_bump_seed s) = Some authority /\
    load_token_swap e w k PROGRAM_ID =
      Some (mk_token_swap k PROGRAM_ID (st_token_program_id s) (st_pool_mint s) (st_pool_fee_account s) authority
              (st_token_a s) (st_token_b s) (st_token_a_mint s) (st_token_b_mint s) (st_fees s) (curve_tag (st_curve s))).
Proof.
  intros R Ek Hp. pose proof (reachable_inv _ _ Ek R) as I. destruct (proj2 I k s Hp) as (authority & Hf & _).
  exists authority. split; [apply (proj1 Ek) in Hf; apply Hf |]. unfold load_token_swap.
  destruct Hp as (-> & Hu). rewrite Z.eqb_refl. cbn [negb]. set (data := raw_of (a_data (w k))) in *. clearbody data.
  rewrite Hf. cbn [bind_opt]. destruct data as [| v rest]; [discriminate |]. unfold swap_unpack in Hu.
  destruct (v =? 1); [| discriminate].
  destruct (Nat.eqb_spec (length rest) SWAP_V1_LEN) as [L |]; [| discriminate]. unfold SWAP_V1_LEN in L.
  destruct (unpack_v1_from rest) as [s' |] eqn:E; cbn [rbind] in Hu; [| discriminate].
  destruct (st_is_initialized s') eqn:Hi; [| discriminate]. injection Hu as ->.
  unfold unpack_v1_from in E.
  assert (N : nth 0 rest 0 = 1).
  { destruct (nth 0 rest 0) as [| [p | p |] | p]; cbn [rbind] in E; try discriminate; [| reflexivity].
    destruct (unpack_curve _); cbn [rbind] in E; [| discriminate]. injection E as <-. discriminate Hi. }
  rewrite N in E. cbn [rbind] in E. destruct (unpack_curve (slice 290 33 rest)) as [c |] eqn:Ec; cbn [rbind] in E; [| discriminate].
  injection E as <-. cbn [length].
  destruct (Nat.ltb_spec (S (length rest)) 292); [lia |].
  change (nth 1 (v :: rest) 0) with (nth 0 rest 0). rewrite N. cbn [Z.eqb].
  rewrite !slice_cons.
  assert (T : curve_tag c = nth 290 rest 0).
  { rewrite <- nth_slice. unfold unpack_curve in Ec. revert Ec. generalize (slice 290 33 rest). intros l Ec.
    destruct (nth 0 l 0) as [| p | p]; [injection Ec as <-; reflexivity | | discriminate].
    repeat (destruct p as [p | p |]; try discriminate Ec; try (injection Ec as <-; reflexivity)). }
  rewrite !from_buffer_ok by (apply slice_length; rewrite L; lia). cbn [bind_opt].
  change (nth 291 (v :: rest) 0) with (nth 290 rest 0). rewrite <- T. unfold unpack_fees.
  rewrite !slice_slice by lia. reflexivity.
Qed.

(** Every method of a loaded pool, with the tag put right, is the instruction on the
    accounts recorded in the pool. *)
Lemma loaded_methods e w k s payer : reachable e w -> env_ok e -> pool_at w k s ->
  exists ts authority, load_token_swap e w k PROGRAM_ID = Some ts /\ create_pda e k (st_bump_seed s) = Some authority /\
  (forall source vin vout dest host user n m c, ts_swap ts source vin vout dest host user n m = Some c ->
     let i := Swap ([k; authority; user; source; vin; vout; dest; st_pool_mint s; st_pool_fee_account s; TOKEN_PROGRAM_ID] ++
                    match host with Some h => [h] | None => [] end) (Z.abs n) (Z.abs m) in
     entry e w (retagged i (call_of payer [] c)) = exec e [payer; user] w i) /\
  (forall ua ub dest user n a b c, ts_deposit_all ts ua ub dest user n a b = Some c ->
     let i := DepositAll [k; authority; user; ua; ub; st_token_a s; st_token_b s; st_pool_mint s; dest; TOKEN_PROGRAM_ID]
                         (Z.abs n) (Z.abs a) (Z.abs b) in
     entry e w (retagged i (call_of payer [] c)) = exec e [payer; user] w i) /\
  (forall ua ub source user n a b c, ts_withdraw_all ts ua ub source user n a b = Some c ->
     let i := WithdrawAll [k; authority; user; st_pool_mint s; source; st_token_a s; st_token_b s; ua; ub;
                           st_pool_fee_account s; TOKEN_PROGRAM_ID] (Z.abs n) (Z.abs a) (Z.abs b) in
     entry e w (retagged i (call_of payer [] c)) = exec e [payer; user] w i) /\
  (forall source dest user n m c, ts_deposit_single ts source dest user n m = Some c ->
     let i := DepositSingle [k; authority; user; source; st_token_a s; st_token_b s; st_pool_mint s; dest; TOKEN_PROGRAM_ID]
                            (Z.abs n) (Z.abs m) in
     entry e w (retagged i (call_of payer [] c)) = exec e [payer; user] w i) /\
  (forall dest source user n m c, ts_withdraw_single ts dest source user n m = Some c ->
     let i := WithdrawSingle [k; authority; user; st_pool_mint s; source; st_token_a s; st_token_b s; dest;
                              st_pool_fee_account s; TOKEN_PROGRAM_ID] (Z.abs n) (Z.abs m) in
     entry e w (retagged i (call_of payer [] c)) = exec e [payer; user] w i).
Proof.
  intros R Ek Hp. destruct (load_pool e w k s R Ek Hp) as (authority & Hc & Hl).
  pose proof (reachable_inv _ _ Ek R) as I. destruct (proj2 I k s Hp) as (au & _ & Ht & _). rewrite Ht in Hl.
  eexists. exists authority. split; [exact Hl |]. split; [exact Hc |].
  split. { intros. exact (swap_retagged _ _ _ _ _ _ _ _ _ _ _ _ _ _ _ _ _ _ _ H). }
  split. { intros. exact (deposit_all_retagged _ _ _ _ _ _ _ _ _ _ _ _ _ _ _ _ _ _ _ H). }
  split. { intros. exact (withdraw_all_retagged _ _ _ _ _ _ _ _ _ _ _ _ _ _ _ _ _ _ _ _ H). }
  split. { intros. exact (deposit_single_retagged _ _ _ _ _ _ _ _ _ _ _ _ _ _ _ _ _ H). }
  intros. exact (withdraw_single_retagged _ _ _ _ _ _ _ _ _ _ _ _ _ _ _ _ _ _ H).
Qed.

(** ** Accounts that look like pools are pools *)
Definition versioned_pools (w : world) : Prop :=
  forall k, a_owner (w k) = PROGRAM_ID -> versioned (a_data (w k)) -> exists s, pool_at w k s.
Lemma step_versioned e w ev w' : env_ok e -> world_wf w -> step e w ev w' -> versioned_pools w -> versioned_pools w'.
Proof.
  intros He W S. revert W. destruct S as [w1 sg i w2 _ Hpk H | w1 w2 (_ & H)]; intros W V k Ow Ve.
  - destruct (creates_dec i) as [C | C].
    + pose proof (create_effect _ _ _ _ _ He W Hpk C H) as Eff. cbv zeta in Eff.
      destruct Eff as (f & c & bump & ta & tb & tf & td & pm & _ & _ & _ & _ & Owp & _ & _ &
        _ & _ & _ & Htd & Hpm & _ & _ & _ & _ & _ & _ & _ & _ & _ & _ & _ & _ & _ & _ &
        _ & _ & _ & _ & Hp' & _ & _ & _ & Fr & Fr' & _).
      destruct (Z.eq_dec k (nth 0 (instr_accounts i) 0)) as [-> | N]; [eexists; exact Hp' |].
      assert (Ek : a_owner (w2 k) = a_owner (w1 k)) by (specialize (Fr' k N); now injection Fr').
      assert (Eq : w2 k = w1 k).
      { apply Fr. cbn [In]. intros [Q | [Q | [Q | []]]]; subst k; [now apply N | |].
        - rewrite Ek, (proj1 Hpm) in Ow. discriminate Ow.
        - rewrite Ek, (proj1 Htd) in Ow. discriminate Ow. }
      rewrite Eq in Ow, Ve. destruct (V k Ow Ve) as (s & Hs). exists s. eapply pool_at_eq; [exact Eq | exact Hs].
    + destruct (trade_keeps_pools _ _ _ _ _ W H C) as (_ & Fr & Owx).
      assert (Eq : w2 k = w1 k). { apply Fr. rewrite <- Owx, Ow. discriminate. }
      rewrite Eq in Ow, Ve. destruct (V k Ow Ve) as (s & Hs). exists s. eapply pool_at_eq; [exact Eq | exact Hs].
  - destruct (H k) as (_ & X & _). destruct (X Ow) as [Eq | N]; [| contradiction].
    rewrite Eq in Ow, Ve. destruct (V k Ow Ve) as (s & Hs). exists s. eapply pool_at_eq; [exact Eq | exact Hs].
Qed.
Lemma reachable_versioned e w : env_ok e -> reachable e w -> versioned_pools w.
Proof.
  intros He (w0 & evs & (W & G) & Hh).
  assert (V : versioned_pools w0) by (intros k Ow Ve; destruct (G k Ow Ve)).
  clear G. induction Hh as [| w ev w1 evs w2 S Hh IH]; [exact V |].
  apply IH; [exact (step_wf _ _ _ _ He W S) | exact (step_versioned _ _ _ _ He W S V)].
Qed.
Lemma load_versioned e w k ts : env_ok e -> reachable e w -> load_token_swap e w k PROGRAM_ID = Some ts ->
  nth 0 (raw_of (a_data (w k))) 0 = 1 -> exists s, pool_at w k s.
Proof.
  intros He R H N. apply (reachable_versioned e w He R).
  - unfold load_token_swap in H. destruct (Z.eqb_spec (a_owner (w k)) PROGRAM_ID); [assumption | discriminate].
  - unfold versioned. destruct (a_data (w k)) as [t | m | [| b l]]; cbn [raw_of nth] in N; try discriminate.
    subst b. now exists l.
Qed.
