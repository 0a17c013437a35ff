(** The example ledger as the result of a history, and two ledgers in which all
    pool tokens have been burned by their holders. *)
From Verif Require Import Ints Tactics Fees LinearCurve SwapCurve Codec Token Processor Api History Spec LedgerSpec
  TokenFacts EffectFacts HistoryFacts LedgerExamples.

Lemma ex_signers k : 0 <= k < 2 ^ 200 -> signers_ok ex_env [k].
Proof.
  intros Hk a [<- | []] (p & b & H). cbn [create_pda ex_env] in H. unfold ex_pda in H.
  assert (L : 2 ^ 200 < 2 ^ 255) by reflexivity. revert H L Hk. generalize (2 ^ 255) (2 ^ 200). intros m n H L Hk.
  destruct (Z.eqb_spec b 255); cbn [andb] in H; [| discriminate].
  destruct (Z.leb_spec 0 p); cbn [andb] in H; [| discriminate].
  destruct (Z.ltb_spec p n); [| discriminate]. injection H as H. lia.
Qed.

Ltac keys_ok :=
  cbn [instr_accounts ex_init1 ex_init2];
  repeat (apply Forall_cons; [unfold is_pubkey, auth, TOKEN_PROGRAM_ID; vm_compute; split; congruence |]); apply Forall_nil.

Definition account_wfb (a : account) : bool :=
  match a_data a with
  | DToken t => u64b (t_amount t) && u64b (t_delegated_amount t) && (0 <=? t_mint t) && (t_mint t <? 2 ^ 256)
  | DMint m => u64b (m_supply m)
  | DRaw l => forallb (fun b => (0 <=? b) && (b <=? 255)) l
  end.
Lemma of_list_in l k : of_list l k = empty_account \/ In (k, of_list l k) l.
Proof.
  induction l as [| (j, a) l IH]; [now left |]. cbn [of_list]. destruct (Z.eqb_spec k j) as [-> | N].
  - right. now left.
  - destruct IH as [IH | IH]; [now left | right; now right].
Qed.
Lemma of_list_all l (P : Z -> account -> Prop) : (forall k, P k empty_account) ->
  Forall (fun ka => P (fst ka) (snd ka)) l -> forall k, P k (of_list l k).
Proof.
  intros H0 H k. destruct (of_list_in l k) as [-> | Hin]; [apply H0 |].
  rewrite Forall_forall in H. exact (H _ Hin).
Qed.

Lemma ex_genesis : genesis_ok ex_w0.
Proof.
  split.
  - intros k. apply (of_list_all _ (fun _ a => account_wf a)); [intros ?; exact (Forall_nil _) |].
    repeat (apply Forall_cons; [| try apply Forall_nil]);
      cbn [snd]; unfold account_wf, zeroed, tok, a_mint; cbn [a_data]; unfold is_u64, u64_max, is_pubkey;
      try (cbn; vm_compute; intuition congruence).
    all: apply Forall_forall; intros x Hx; apply repeat_spec in Hx; subst; unfold is_u8; lia.
  - intros k. apply (of_list_all _ (fun _ a => a_owner a = PROGRAM_ID -> ~ versioned (a_data a))).
    + intros _ H. discriminate H.
    + repeat (apply Forall_cons; [| try apply Forall_nil]); cbn [snd]; intros H; try discriminate H; intros (l & E); discriminate E.
Qed.

Lemma ex_run signers w i w1 : signers_ok ex_env signers -> Forall is_pubkey (instr_accounts i) ->
  w1 = run1 signers w i -> match exec ex_env signers w i with Ok _ => true | Err _ => false end = true ->
  step ex_env w (Instruction signers i) w1.
Proof.
  intros Sg Hpk -> H. apply step_instruction; try assumption. unfold run1.
  destruct (exec ex_env signers w i); [reflexivity | discriminate].
Qed.
Lemma ex_step1 : step ex_env ex_w0 (Instruction [100] ex_init1) ex_w1.
Proof. apply ex_run; [apply ex_signers; lia | keys_ok | reflexivity | vm_compute; reflexivity]. Qed.
Lemma ex_step2 : step ex_env ex_w1 (Instruction [300] ex_init2) ex_w2.
Proof. apply ex_run; [apply ex_signers; lia | keys_ok | reflexivity | vm_compute; reflexivity]. Qed.

Lemma history_snoc e w evs w1 ev w2 : history e w evs w1 -> step e w1 ev w2 -> history e w (evs ++ [ev]) w2.
Proof.
  induction 1 as [| w ev' w1 evs w3 S _ IH]; intros S'; cbn [app].
  - econstructor; [exact S' | constructor].
  - econstructor; [exact S | auto].
Qed.
Lemma reachable_step e w ev w' : reachable e w -> step e w ev w' -> reachable e w'.
Proof. intros (w0 & evs & G & H) S. exists w0, (evs ++ [ev]). split; [exact G |]. exact (history_snoc _ _ _ _ _ _ H S). Qed.
Lemma ex_reachable : reachable ex_env ex_w2.
Proof.
  apply (reachable_step _ ex_w1 (Instruction [300] ex_init2)); [| apply ex_step2].
  apply (reachable_step _ ex_w0 (Instruction [100] ex_init1)); [| apply ex_step1].
  exists ex_w0, []. split; [apply ex_genesis | constructor].
Qed.

(** Burning is an external action. *)
Lemma external_refl e a : external_account_ok e a a.
Proof.
  split; [auto |]. split; [auto |]. split.
  - intros t Ow Hd _ D C. split; [exact Ow |]. exists (t_amount t), (t_frozen t). split; [lia |].
    rewrite Hd. destruct t; cbn in *; congruence.
  - intros m au Ow Hd A _ F. split; [exact Ow |]. exists (m_supply m). split; [lia |].
    rewrite Hd. destruct m; cbn in *; congruence.
Qed.

Definition set_amount (a : account) (x : Z) : account :=
  mk_account (a_owner a) match a_data a with DToken t => DToken (with_amount t x) | d => d end.
Definition set_supply (a : account) (x : Z) : account :=
  mk_account (a_owner a) match a_data a with DMint t => DMint (with_supply t x) | d => d end.
Definition burn_all (w : world) (holder mint : Z) : world :=
  upd (upd w holder (set_amount (w holder) 0)) mint (set_supply (w mint) 0).

Lemma burn_external e w holder mint : world_wf w ->
  (exists t, token_at w holder t /\ ~ is_pda e (t_owner t)) -> (exists m, mint_at w mint m) ->
  external_ok e w (burn_all w holder mint).
Proof.
  intros W (t & Ht & Np) (m & Hm).
  assert (Ne : holder <> mint) by (intros ->; exact (token_not_mint _ _ _ _ Ht Hm)).
  split; intros k; unfold burn_all.
  - destruct (Z.eq_dec k mint) as [-> | N1].
    { rewrite upd_same. unfold account_wf, set_supply. destruct Hm as (_ & ->). cbn. unfold is_u64, u64_max. lia. }
    rewrite upd_other by exact N1. destruct (Z.eq_dec k holder) as [-> | N2]; [| rewrite upd_other by exact N2; apply W].
    rewrite upd_same. specialize (W holder). unfold account_wf, set_amount in *. destruct Ht as (_ & E). rewrite E in *. cbn.
    unfold is_u64, u64_max in *. intuition lia.
  - destruct (Z.eq_dec k mint) as [-> | N1].
    { rewrite upd_same. destruct Hm as (Ow & Hd). unfold external_account_ok, set_supply. rewrite Ow, Hd. cbn [a_owner a_data].
      split; [discriminate |]. split; [discriminate |]. split; [discriminate |].
      intros m' au _ E A _ F. injection E as ->. split; [reflexivity |]. exists 0. split.
      - specialize (W mint). unfold account_wf in W. rewrite Hd in W. unfold is_u64 in W. lia.
      - destruct m'; cbn in *; unfold with_supply; cbn; congruence. }
    rewrite upd_other by exact N1. destruct (Z.eq_dec k holder) as [-> | N2]; [| rewrite upd_other by exact N2; apply external_refl].
    rewrite upd_same. destruct Ht as (Ow & Hd). unfold external_account_ok, set_amount. rewrite Ow, Hd. cbn [a_owner a_data].
    split; [discriminate |]. split; [discriminate |]. split; [| discriminate].
    intros t' _ E P. injection E as ->. contradiction.
Qed.

Definition ex_w3 : world := burn_all ex_w2 104 203.
Lemma ex_reachable3 : reachable ex_env ex_w3.
Proof.
  apply (reachable_step _ ex_w2 External); [apply ex_reachable |]. apply step_external, burn_external.
  - exact (proj1 (reachable_inv _ _ ex_env_ok ex_reachable)).
  - eexists (mk_token 203 901 (10 ^ 9) None 0 false false None). split; [split; vm_compute; reflexivity |].
    intros P. apply (ex_signers 901 ltac:(lia) 901); [now left | exact P].
  - eexists (mk_mint (Some (auth 100)) (10 ^ 9) 9 None). split; vm_compute; reflexivity.
Qed.

(** A deposit of nothing into the linear pool 100 once its pool tokens are gone. *)
Definition ex_free_deposit : instr :=
  DepositSingle [100; auth 100; 901; 111; 101; 102; 203; 104; TOKEN_PROGRAM_ID] 0 0.
Definition ex_pool1 : swap_state :=
  mk_swap_state true 255 TOKEN_PROGRAM_ID 101 102 203 201 202 103 linear_fees (LinearPrice (mk_linear 1 2 50 1)).

Lemma ex_pool1_at : pool_at ex_w3 100 ex_pool1.
Proof. split; vm_compute; reflexivity. Qed.

Lemma step_exec e w sg i w' : step e w (Instruction sg i) w' -> exec e sg w i = Ok w'.
Proof. intros S. inversion S; subst; assumption. Qed.

Lemma free_deposit : exists w', step ex_env ex_w3 (Instruction [901] ex_free_deposit) w' /\
  supply w' 203 = supply ex_w3 203 + 10 ^ 9 /\ balance w' 104 = balance ex_w3 104 + 10 ^ 9 /\
  forall k, k <> 104 -> balance w' k = balance ex_w3 k.
Proof.
  assert (S : step ex_env ex_w3 (Instruction [901] ex_free_deposit) (run1 [901] ex_w3 ex_free_deposit)).
  { apply ex_run; [apply ex_signers; lia | unfold ex_free_deposit; keys_ok | reflexivity | vm_compute; reflexivity]. }
  exists (run1 [901] ex_w3 ex_free_deposit). split; [exact S |].
  split; [vm_compute; reflexivity |]. split; [vm_compute; reflexivity |].
  intros k Nk. apply step_exec in S. unfold ex_free_deposit at 1 in S.
  apply deposit_single_effect in S; [| exact (proj1 (reachable_inv _ _ ex_env_ok ex_reachable3))].
  cbn [nth] in S. destruct S as (s & d & x & _ & _ & _ & _ & _ & _ & (B & _)). rewrite B.
  unfold only_at. rewrite (proj2 (Z.eqb_neq k 104) Nk). destruct d; repeat destruct (_ =? _); lia.
Qed.

Lemma linear_deposit_possible : exists e w signers i w' s l,
  env_ok e /\ reachable e w /\ pool_at w (named_pool i) s /\ st_curve s = LinearPrice l /\ deposits i /\
  step e w (Instruction signers i) w' /\ supply w' (st_pool_mint s) = supply w (st_pool_mint s) + 10 ^ 9.
Proof.
  destruct free_deposit as (w' & S & H & _).
  exists ex_env, ex_w3, [901], ex_free_deposit, w', ex_pool1, (mk_linear 1 2 50 1).
  split; [exact ex_env_ok |]. split; [exact ex_reachable3 |]. split; [exact ex_pool1_at |].
  split; [reflexivity |]. split; [exact I |]. split; [exact S | exact H].
Qed.
Lemma free_pool_tokens : exists e w signers i w' s,
  env_ok e /\ reachable e w /\ pool_at w (named_pool i) s /\ deposits i /\
  step e w (Instruction signers i) w' /\
  balance w' (mint_target i) = balance w (mint_target i) + 10 ^ 9 /\
  forall k, k <> mint_target i -> balance w' k = balance w k.
Proof.
  destruct free_deposit as (w' & S & _ & H & H').
  exists ex_env, ex_w3, [901], ex_free_deposit, w', ex_pool1.
  split; [exact ex_env_ok |]. split; [exact ex_reachable3 |]. split; [exact ex_pool1_at |].
  split; [exact I |]. split; [exact S |]. split; [exact H | exact H'].
Qed.
