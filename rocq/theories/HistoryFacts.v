(** What no history can change about a pool. *)
From Verif Require Import Ints Tactics Fees LinearCurve ConstantPrice SwapCurve Codec Token Processor Api History
  Spec LedgerSpec CurveFacts LinearFacts SwapFacts CurveProps LinearProps CodecFacts TokenFacts ProcFacts AmountFacts EffectFacts
  TradeFacts CreateFacts PermFacts.

(** ** Vaults and mints under calls of the token program *)
Lemma run_vault signed l w w' authority k mint : run_ops signed w l = Ok w' ->
  Forall (fun o => 0 <= op_amount o) l -> vault_ok w authority k mint -> vault_ok w' authority k mint.
Proof.
  revert w. induction l as [| o l IH]; intros w H Ha V; cbn [run_ops] in H.
  - injection H as <-. exact V.
  - apply rbind_ok in H. destruct H as (w1 & H1 & H2). apply Forall_cons_iff in Ha. destruct Ha as [Ha0 Ha].
    apply (IH w1 H2 Ha). clear IH H2. destruct V as (t & Ht & V1 & V2 & V3 & V4).
    pose proof (op_effect _ _ _ _ H1) as (_ & _ & _ & _ & _ & _ & _ & A8).
    destruct (sans_token _ _ _ _ (A8 k) Ht) as (t' & Ht' & B1 & B2 & _ & _ & B3).
    exists t'. split; [exact Ht' |]. split; [congruence |]. split; [congruence |]. split; [| congruence].
    destruct o as [s d a x | m d a x | s m a x]; cbn [apply_op op_amount] in *.
    + apply transfer_ok in H1. destruct H1 as (ts & td & ts' & Hs & Hd & _ & _ & _ & Hdeb & Hw).
      destruct Hw as [(E & ->) | (E & _ & ->)]; [now rewrite (token_fun _ _ _ _ Ht' Ht) |].
      destruct (Z.eq_dec k d) as [-> | Nd].
      * rewrite (token_fun _ _ _ _ Ht Hd) in *. rewrite (token_fun _ _ _ _ Ht' (token_upd _ _ _)). exact V3.
      * destruct (Z.eq_dec k s) as [-> | Ns].
        -- rewrite (token_fun _ _ _ _ Ht Hs) in *.
           destruct Hdeb as [Hdeb | Hdeb]; [| congruence].
           assert (T : token_at (upd (upd w s (mk_account TOKEN_PROGRAM_ID (DToken (with_amount ts (t_amount ts - x))))) d
             (mk_account TOKEN_PROGRAM_ID (DToken (with_amount td (t_amount td + x))))) s (with_amount ts (t_amount ts - x)))
             by (eapply token_eq; [apply upd_other; exact Nd | apply token_upd]).
           rewrite (token_fun _ _ _ _ Ht' T). exact V3.
        -- eapply token_eq in Ht; [rewrite (token_fun _ _ _ _ Ht' Ht); exact V3 |].
           rewrite !upd_other by auto. reflexivity.
    + apply mint_to_ok in H1. destruct H1 as (mt & td & Hm & Hd & _ & E & _ & _ & _ & _ & ->).
      assert (Nm : k <> m) by (intros ->; exact (token_not_mint _ _ _ _ Ht Hm)).
      destruct (Z.eq_dec k d) as [-> | Nd].
      * rewrite (token_fun _ _ _ _ Ht Hd) in *.
        eapply token_eq in Ht; [rewrite (token_fun _ _ _ _ Ht' (token_eq _ _ _ _ (upd_other _ _ _ _ Nm) (token_upd _ _ _))); exact V3 |].
        reflexivity.
      * eapply token_eq in Ht; [rewrite (token_fun _ _ _ _ Ht' Ht); exact V3 |].
        rewrite !upd_other by auto. reflexivity.
    + apply burn_ok in H1. destruct H1 as (mt & ts & ts' & Hm & Hs & _ & E & _ & _ & _ & Hdeb & ->).
      assert (Nm : k <> m) by (intros ->; exact (token_not_mint _ _ _ _ Ht Hm)).
      destruct (Z.eq_dec k s) as [-> | Ns].
      * rewrite (token_fun _ _ _ _ Ht Hs) in *. destruct Hdeb as [Hdeb | Hdeb]; [| congruence].
        rewrite (token_fun _ _ _ _ Ht' (token_eq _ _ _ _ (upd_other _ _ _ _ Nm) (token_upd _ _ _))). exact V3.
      * eapply token_eq in Ht; [rewrite (token_fun _ _ _ _ Ht' Ht); exact V3 |].
        rewrite !upd_other by auto. reflexivity.
Qed.

(** ** Pools under one step *)
Lemma pool_pda e w k s : env_ok e -> pool_ok e w k s -> forall au b, find_pda e k = Some (au, b) ->
  create_pda e k (st_bump_seed s) = Some au /\ is_pda e au.
Proof.
  intros He (au & Hf & _) au' b' H. rewrite Hf in H. injection H as <- <-.
  destruct (proj1 He _ _ _ Hf) as (Hc & _). split; [exact Hc |]. now exists k, (st_bump_seed s).
Qed.

Lemma pool_frame e w w' k s : env_ok e ->
  (forall au v m, is_pda e au -> vault_ok w au v m -> vault_ok w' au v m) ->
  (forall au v m, is_pda e au -> mint_at w v m -> m_authority m = Some au -> m_freeze_authority m = None ->
    exists m', mint_at w' v m' /\ m_authority m' = Some au /\ m_freeze_authority m' = None) ->
  pool_ok e w k s -> pool_ok e w' k s.
Proof.
  intros He Hv Hm Hp. pose proof (pool_pda _ _ _ _ He Hp) as Hpda.
  destruct Hp as (au & Hf & H1 & Va & Vb & H2 & H3 & H4 & (m & M1 & M2 & M3) & H5).
  destruct (Hpda _ _ Hf) as (_ & Hi).
  exists au. split; [exact Hf |]. split; [exact H1 |]. split; [auto |]. split; [auto |].
  do 3 (split; [assumption |]). split; [eauto | exact H5].
Qed.

Lemma trade_keeps_pools e signers w i w' : world_wf w -> exec e signers w i = Ok w' -> ~ creates i ->
  world_wf w' /\ (forall k, a_owner (w k) <> TOKEN_PROGRAM_ID -> w' k = w k) /\
  (forall k, a_owner (w' k) = a_owner (w k)).
Proof.
  intros W H Nc. destruct (trade_ops _ _ _ _ _ W H Nc) as (s & au & user & ops & _ & _ & _ & Hrun & Ha & _).
  split; [eapply run_wf; eauto |].
  apply run_effect in Hrun. destruct Hrun as (_ & _ & _ & _ & H5 & H6 & _). auto.
Qed.
Lemma pool_at_eq w w' k s : w' k = w k -> pool_at w k s -> pool_at w' k s.
Proof. unfold pool_at. intros ->. auto. Qed.
Lemma not_token w k s : pool_at w k s -> a_owner (w k) <> TOKEN_PROGRAM_ID.
Proof. intros (-> & _). discriminate. Qed.

Lemma creates_dec i : creates i \/ ~ creates i.
Proof. destruct i; cbn; auto. Qed.

(** Stored pools never change. *)
Lemma exec_pool_stays e signers w i w' k s : env_ok e -> world_wf w -> Forall is_pubkey (instr_accounts i) ->
  exec e signers w i = Ok w' -> pool_at w k s -> pool_at w' k s.
Proof.
  intros He W Hpk H Hp. destruct (creates_dec i) as [C | C].
  - pose proof (create_effect _ _ _ _ _ He W Hpk C H) as Eff. cbv zeta in Eff.
    destruct Eff as (f & c & bump & ta & tb & tf & td & pm & _ & _ & _ & _ & _ & Once & _ & _ & _ & _ & Htd & Hpm & Eff).
    destruct Eff as (_ & _ & _ & _ & _ & _ & _ & _ & _ & _ & _ & _ & _ & _ & _ & _ & _ & _ & _ & _ & _ & _ & Fr & _).
    eapply pool_at_eq; [apply Fr | exact Hp]. cbn [In]. intros [E | [E | [E | []]]]; subst k.
    + exact (Once _ Hp).
    + apply (not_token _ _ _ Hp). apply Hpm.
    + apply (not_token _ _ _ Hp). apply Htd.
  - destruct (trade_keeps_pools _ _ _ _ _ W H C) as (_ & Fr & _).
    eapply pool_at_eq; [apply Fr | exact Hp]. exact (not_token _ _ _ Hp).
Qed.
Lemma exec_wf e signers w i w' : env_ok e -> world_wf w -> Forall is_pubkey (instr_accounts i) ->
  exec e signers w i = Ok w' -> world_wf w'.
Proof.
  intros He W Hpk H. destruct (creates_dec i) as [C | C].
  - pose proof (create_effect _ _ _ _ _ He W Hpk C H) as Eff. cbv zeta in Eff.
    destruct Eff as (f & c & bump & ta & tb & tf & td & pm & Eff).
    repeat match type of Eff with _ /\ _ => destruct Eff as [_ Eff] end. exact Eff.
  - now destruct (trade_keeps_pools _ _ _ _ _ W H C) as (? & _).
Qed.
Lemma step_wf e w ev w' : env_ok e -> world_wf w -> step e w ev w' -> world_wf w'.
Proof. intros He W S. revert W. destruct S as [w1 sg i w2 _ Hpk H | w1 w2 (H & _)]; intros W; [exact (exec_wf _ _ _ _ _ He W Hpk H) | exact H]. Qed.
Lemma pool_versioned w k s : pool_at w k s -> versioned (a_data (w k)).
Proof.
  intros (_ & H). destruct (a_data (w k)) as [t | m | l]; try discriminate H. cbn [raw_of] in H.
  destruct l as [| v l]; [discriminate H |]. cbn [swap_unpack] in H.
  destruct (Z.eqb_spec v 1) as [-> | _]; [exists l; reflexivity | discriminate H].
Qed.
Lemma step_pool_stays e w ev w' k s : env_ok e -> world_wf w -> step e w ev w' -> pool_at w k s -> pool_at w' k s.
Proof.
  intros He W S. revert W. destruct S as [w1 sg i w2 _ Hpk H | w1 w2 (_ & H)]; intros W Hp; [exact (exec_pool_stays _ _ _ _ _ _ _ He W Hpk H Hp) |].
  destruct (H k) as (E & _). eapply pool_at_eq; [exact (E (proj1 Hp) (pool_versioned _ _ _ Hp)) | exact Hp].
Qed.

Lemma amount_vault w w' au k m : sans_amount (w' k) = sans_amount (w k) -> vault_ok w au k m -> vault_ok w' au k m.
Proof.
  intros H (t & Ht & V). apply (sans_token_full _ _ _ _ H) in Ht. eexists. split; [exact Ht |]. exact V.
Qed.
Lemma amount_allowance a a' : sans_amount a' = sans_amount a -> sans_allowance a' = sans_allowance a.
Proof.
  unfold sans_amount, sans_allowance. intros H.
  destruct a as [o d], a' as [o' d']; cbn [a_owner a_data] in *.
  destruct d, d'; try discriminate H; injection H; intros; subst; congruence.
Qed.

Lemma exec_pool_ok e signers w i w' k s : env_ok e -> world_wf w -> Forall is_pubkey (instr_accounts i) ->
  exec e signers w i = Ok w' -> pool_ok e w k s -> pool_ok e w' k s.
Proof.
  intros He W Hpk H Hp. destruct (creates_dec i) as [C | C].
  - pose proof (create_effect _ _ _ _ _ He W Hpk C H) as Eff. cbv zeta in Eff.
    destruct Eff as (f & c & bump & ta & tb & tf & td & pm & _ & _ & _ & _ & Ow & Eff).
    assert (Fr : forall k, k <> nth 0 (instr_accounts i) 0 -> sans_amount (w' k) = sans_amount (w k))
      by (repeat match type of Eff with ?A /\ (?B /\ ?C) => destruct Eff as [_ Eff] end; exact (proj1 Eff)).
    revert Hp. apply pool_frame; [exact He | |].
    + intros au v m _ V. eapply amount_vault; [| exact V]. apply Fr. intros ->. destruct V as (t & (E & _) & _). rewrite Ow in E; discriminate E.
    + intros au v m _ M A F. exists (with_supply m (supply w' v)). split; [| cbn; auto].
      eapply sans_mint; [| exact M]. apply amount_allowance, Fr. intros ->. destruct M as (E & _). rewrite Ow in E; discriminate E.
  - destruct (trade_ops _ _ _ _ _ W H C) as (s1 & au1 & user & ops & _ & _ & _ & Hrun & Ha & _).
    revert Hp. apply pool_frame; [exact He | |].
    + intros au v m _ V. eapply run_vault; eauto.
    + intros au v m _ M A F. exists (with_supply m (supply w' v)). split; [| cbn; auto].
      eapply sans_mint; [| exact M]. apply run_effect in Hrun. destruct Hrun as (_ & _ & _ & _ & _ & _ & _ & B8). apply B8.
Qed.

Lemma created_config e signers w i w' f c : creates i -> exec e signers w i = Ok w' -> requested i = Some (f, c) ->
  fees_wf f -> curve_wf c -> curve_validate c = Ok tt -> config_ok e f c.
Proof.
  intros C H Hr Hf Hc Hv. destruct (create_fees _ _ _ _ _ _ _ C H Hr) as (F1 & F2 & F3 & F4 & tf & _ & Cs).
  split; [eauto |]. do 4 (split; [assumption |]).
  destruct i; try contradiction; cbn [requested] in Hr; injection Hr as <- <-; cbn [curve_wf curve_validate] in *.
  - split; [exact Hc |]. unfold cprice_validate, guard in Hv. unfold is_u64 in Hc.
    match type of Hv with context [?p =? 0] => destruct (Z.eqb_spec p 0) end; [discriminate | lia].
  - split; [reflexivity |]. split; [exact Hc |]. apply linear_validate_iff in Hv; [| exact Hc]. exact Hv.
Qed.

Lemma exec_new_pool e signers w i w' k s : env_ok e -> world_wf w -> Forall is_pubkey (instr_accounts i) ->
  exec e signers w i = Ok w' -> pool_at w' k s ->
  pool_at w k s \/ creates i /\ named_pool i = k /\ (forall s, ~ pool_at w k s) /\ pool_ok e w' k s.
Proof.
  intros He W Hpk H Hp. destruct (creates_dec i) as [C | C].
  - pose proof (create_effect _ _ _ _ _ He W Hpk C H) as Eff. cbv zeta in Eff.
    destruct Eff as (f & c & bump & ta & tb & tf & td & pm & Hr & Hf & Hc & _ & Ow & Once & Hfind &
      Ha & Hb & Htf & Htd & Hpm & O1 & O2 & Nm & D1 & D2 & C1 & C2 & S0 & Au & Fz & Mf & Of & Md & Od &
      _ & _ & Hv & _ & Hp' & _ & _ & _ & Fr & Fr' & _).
    unfold named_pool. set (pool := nth 0 (instr_accounts i) 0) in *.
    assert (Keep : forall v, a_owner (w v) = TOKEN_PROGRAM_ID -> sans_amount (w' v) = sans_amount (w v)).
    { intros v E. apply Fr'. intros ->. rewrite Ow in E. discriminate E. }
    destruct (Z.eq_dec k pool) as [E | E].
    + subst k. right. split; [exact C |]. split; [reflexivity |]. split; [exact Once |].
      rewrite (pool_fun _ _ _ _ Hp Hp'). exists (nth 1 (instr_accounts i) 0).
      cbn [st_bump_seed st_token_program_id st_token_a st_token_b st_token_a_mint st_token_b_mint
        st_pool_fee_account st_pool_mint st_fees st_curve].
      split; [exact Hfind |]. split; [reflexivity |].
      split. { eapply amount_vault; [apply Keep, Ha |]. exists ta. auto. }
      split. { eapply amount_vault; [apply Keep, Hb |]. exists tb. auto. }
      split; [exact Nm |].
      split. { intros E. rewrite E in Htf. rewrite (token_fun _ _ _ _ Htf Ha) in Of. congruence. }
      split. { intros E. rewrite E in Htf. rewrite (token_fun _ _ _ _ Htf Hb) in Of. congruence. }
      split. { eexists. split; [eapply sans_mint; [apply amount_allowance, Keep, Hpm | exact Hpm] |]. cbn. auto. }
      eapply created_config; eassumption.
    + left. assert (Ek : a_owner (w' k) = a_owner (w k)).
      { specialize (Fr' k E). now injection Fr'. }
      destruct Hp as (P1 & P2). eapply (pool_at_eq w' w k); [| split; assumption].
      symmetry. apply Fr. cbn [In]. intros [Q | [Q | [Q | []]]]; subst k.
      * now apply E.
      * rewrite Ek, (proj1 Hpm) in P1. discriminate P1.
      * rewrite Ek, (proj1 Htd) in P1. discriminate P1.
  - left. destruct (trade_keeps_pools _ _ _ _ _ W H C) as (_ & Fr & Ow).
    assert (N := not_token _ _ _ Hp). rewrite Ow in N.
    eapply (pool_at_eq w' w k); [| exact Hp]. symmetry. exact (Fr k N).
Qed.

Definition inv (e : env) (w : world) : Prop :=
  world_wf w /\ forall k s, pool_at w k s -> pool_ok e w k s.

Lemma genesis_no_pool w k s : genesis_ok w -> ~ pool_at w k s.
Proof. intros (_ & G) Hp. exact (G k (proj1 Hp) (pool_versioned _ _ _ Hp)). Qed.
Lemma genesis_inv e w : genesis_ok w -> inv e w.
Proof. intros G. split; [apply G |]. intros k s Hp. destruct (genesis_no_pool _ _ _ G Hp). Qed.

Lemma external_vault e w w' au k m : external_ok e w w' -> is_pda e au -> vault_ok w au k m ->
  vault_ok w' au k m /\ balance w k <= balance w' k.
Proof.
  intros (_ & X) Hi (t & Ht & V1 & V2 & V3 & V4). destruct (X k) as (_ & _ & X3 & _).
  destruct (X3 t (proj1 Ht) (proj2 Ht)) as (Ow & amount & frozen & Le & Hd); try assumption; [now rewrite V1 |].
  assert (T : token_at w' k (mk_token (t_mint t) (t_owner t) amount None (t_delegated_amount t) frozen (t_native t) None))
    by (split; assumption).
  split; [eexists; split; [exact T |]; cbn; auto |].
  rewrite (token_balance _ _ _ Ht), (token_balance _ _ _ T). exact Le.
Qed.
Lemma external_mint e w w' au k m : external_ok e w w' -> is_pda e au -> mint_at w k m ->
  m_authority m = Some au -> m_freeze_authority m = None ->
  (exists m', mint_at w' k m' /\ m_authority m' = Some au /\ m_freeze_authority m' = None) /\
  supply w' k <= supply w k.
Proof.
  intros (_ & X) Hi Hm A F. destruct (X k) as (_ & _ & _ & X4).
  destruct (X4 m au (proj1 Hm) (proj2 Hm) A Hi F) as (Ow & s & Le & Hd).
  assert (T : mint_at w' k (mk_mint (Some au) s (m_decimals m) None)) by (split; assumption).
  split; [eexists; split; [exact T |]; cbn; auto |].
  rewrite (mint_supply _ _ _ Hm), (mint_supply _ _ _ T). exact Le.
Qed.

Lemma step_inv e w ev w' : env_ok e -> inv e w -> step e w ev w' -> inv e w'.
Proof.
  intros He I S. assert (W' : world_wf w') by exact (step_wf _ _ _ _ He (proj1 I) S).
  revert I W'. destruct S as [w1 sg i w2 _ Hpk H | w1 w2 X]; intros (W & I) W'; split; try assumption; intros k s Hp.
  - destruct (exec_new_pool _ _ _ _ _ _ _ He W Hpk H Hp) as [P | (_ & _ & _ & P)]; [| exact P].
    exact (exec_pool_ok _ _ _ _ _ _ _ He W Hpk H (I _ _ P)).
  - assert (P : pool_at w1 k s).
    { destruct (proj2 X k) as (_ & X2 & _). destruct (X2 (proj1 Hp)) as [E | E].
      - eapply (pool_at_eq w2 w1); [symmetry; exact E | exact Hp].
      - destruct (E (pool_versioned _ _ _ Hp)). }
    specialize (I _ _ P). revert I. apply pool_frame; [exact He | |].
    + intros au v m Hi V. exact (proj1 (external_vault _ _ _ _ _ _ X Hi V)).
    + intros au v m Hi M A F. exact (proj1 (external_mint _ _ _ _ _ _ X Hi M A F)).
Qed.
Lemma history_inv e w evs w' : env_ok e -> history e w evs w' -> inv e w -> inv e w'.
Proof.
  intros He H. induction H as [| w ev w1 evs w2 S _ IH]; auto.
  intros I. apply IH. exact (step_inv _ _ _ _ He I S).
Qed.
Lemma reachable_inv e w : env_ok e -> reachable e w -> inv e w.
Proof. intros He (w0 & evs & G & H). exact (history_inv _ _ _ _ He H (genesis_inv _ _ G)). Qed.

Lemma history_pool_stays e w evs w' k s : env_ok e -> world_wf w -> history e w evs w' ->
  pool_at w k s -> pool_at w' k s.
Proof.
  intros He W H. induction H as [| w ev w1 evs w2 S _ IH]; auto.
  intros P. apply IH; [exact (step_wf _ _ _ _ He W S) | exact (step_pool_stays _ _ _ _ _ _ He W S P)].
Qed.

(** ** Who can touch a vault or a pool mint *)
Lemma pda_apart e k k' b b' a a' : env_ok e -> k <> k' ->
  create_pda e k b = Some a -> create_pda e k' b' = Some a' -> a <> a'.
Proof. intros (_ & He) N H H' ->. apply N. exact (proj1 (He _ _ _ _ _ H H')). Qed.

Lemma vault_protected e signers w i w' k s v : env_ok e -> inv e w -> signers_ok e signers ->
  Forall is_pubkey (instr_accounts i) -> exec e signers w i = Ok w' -> pool_at w k s -> vault_of_pool s v ->
  named_pool i <> k \/ ~ pays_out i -> balance w v <= balance w' v.
Proof.
  intros He (W & I) Sg Hpk H Hp Hv Hn. specialize (I _ _ Hp).
  pose proof (pool_pda _ _ _ _ He I) as Hpda. destruct I as (au & Hf & _ & Va & Vb & _).
  destruct (Hpda _ _ Hf) as (Hcr & Hi).
  assert (V : exists m, vault_ok w au v m) by (destruct Hv as [-> | ->]; eauto). destruct V as (mm & t & Ht & V1 & _ & V3 & _).
  destruct (creates_dec i) as [C | C].
  - exact (create_no_debit _ _ _ _ _ _ C H).
  - destruct (trade_ops _ _ _ _ _ W H C) as (s' & au' & user & ops & Hp' & Hcr' & Hu & Hrun & Ha & Hown).
    refine (proj2 (run_protects _ _ _ _ _ _ Hrun Ha Ht V3 _)).
    apply Forall_forall. intros o Ho Hs. rewrite Forall_forall in Hown. specialize (Hown o Ho). rewrite V1.
    assert (Nu : user <> au) by (intros ->; exact (Sg _ Hu Hi)).
    destruct o as [src d a x | m d a x | src m a x]; cbn [op_source op_authority own_op] in *.
    + destruct Hown as [-> | (-> & _ & Po)]; [exact Nu |]. destruct Hn as [Hn | Hn]; [| contradiction].
      exact (pda_apart _ _ _ _ _ _ _ He Hn Hcr' Hcr).
    + discriminate.
    + subst a. exact Nu.
Qed.

Lemma mint_protected e signers w i w' k s : env_ok e -> inv e w -> signers_ok e signers ->
  Forall is_pubkey (instr_accounts i) -> exec e signers w i = Ok w' -> pool_at w k s ->
  named_pool i <> k \/ ~ mints i -> supply w' (st_pool_mint s) <= supply w (st_pool_mint s).
Proof.
  intros He (W & I) Sg Hpk H Hp Hn. specialize (I _ _ Hp).
  pose proof (pool_pda _ _ _ _ He I) as Hpda. destruct I as (au & Hf & _ & _ & _ & _ & _ & _ & (m & Hm & Hau & _) & _).
  destruct (Hpda _ _ Hf) as (Hcr & Hi).
  destruct (creates_dec i) as [C | C].
  - assert (Nk : named_pool i <> k) by (intros <-; exact (create_once _ _ _ _ _ C H _ Hp)).
    pose proof (create_effect _ _ _ _ _ He W Hpk C H) as Eff. cbv zeta in Eff.
    destruct Eff as (f & c & bump & ta & tb & tf & td & pm & _ & _ & _ & _ & _ & _ & Hfind &
      _ & _ & _ & _ & Hpm & _ & _ & _ & _ & _ & _ & _ & _ & Au & _ & _ & _ & _ & _ & _ & _ & _ & _ & _ & _ & _ & Sup & _).
    rewrite Sup. rewrite only_at_other; [lia |]. intros E. rewrite <- E in Hpm.
    rewrite (mint_fun _ _ _ _ Hpm Hm) in Au. rewrite Hau in Au. injection Au as Au.
    destruct (proj1 He _ _ _ Hfind) as (Hcr' & _).
    exact (pda_apart _ _ _ _ _ _ _ He Nk Hcr' Hcr (eq_sym Au)).
  - destruct (trade_ops _ _ _ _ _ W H C) as (s' & au' & user & ops & Hp' & Hcr' & Hu & Hrun & Ha & Hown).
    refine (proj2 (run_mint _ _ _ _ _ _ _ Hrun Ha Hm Hau _)).
    apply Forall_forall. intros o Ho. rewrite Forall_forall in Hown. specialize (Hown o Ho).
    destruct o as [src d a x | m' d a x | src m' a x]; cbn [own_op] in *; auto.
    destruct Hown as (-> & _ & Mi). destruct Hn as [Hn | Hn]; [| contradiction].
    exact (pda_apart _ _ _ _ _ _ _ He Hn Hcr' Hcr).
Qed.

(** C39 *)
Lemma vault_step e w ev w' k s v : env_ok e -> reachable e w -> step e w ev w' -> pool_at w k s -> vault_of_pool s v ->
  (exists authority mint, find_pda e k = Some (authority, st_bump_seed s) /\
     vault_ok w authority v mint /\ vault_ok w' authority v mint) /\
  (balance w' v < balance w v ->
     exists signers i, ev = Instruction signers i /\ pays_out i /\ named_pool i = k).
Proof.
  intros He R S Hp Hv. pose proof (reachable_inv _ _ He R) as I. pose proof (step_inv _ _ _ _ He I S) as I'.
  pose proof (step_pool_stays _ _ _ _ _ _ He (proj1 I) S Hp) as Hp'. split.
  - destruct I as (_ & I), I' as (_ & I'). specialize (I _ _ Hp). specialize (I' _ _ Hp').
    destruct I as (au & Hf & _ & Va & Vb & _), I' as (au' & Hf' & _ & Va' & Vb' & _).
    assert (au' = au) by congruence. subst au'.
    destruct Hv as [-> | ->]; eauto 10.
  - intros Lt. revert R I I' Hp Hp' Lt. destruct S as [w1 sg i w2 Sg Hpk H | w1 w2 X]; intros R I I' Hp Hp' Lt.
    + exists sg, i. split; [reflexivity |]. destruct (pays_out_dec i) as [P | P], (Z.eq_dec (named_pool i) k) as [E | E]; auto;
        exfalso; pose proof (vault_protected _ _ _ _ _ _ _ _ He I Sg Hpk H Hp Hv); lia || (assert (balance w1 v <= balance w2 v) by auto; lia).
    + exfalso. destruct I as (_ & I). specialize (I _ _ Hp). pose proof (pool_pda _ _ _ _ He I) as Hpda.
      destruct I as (au & Hf & _ & Va & Vb & _). destruct (Hpda _ _ Hf) as (_ & Hi).
      assert (V : exists m, vault_ok w1 au v m) by (destruct Hv as [-> | ->]; eauto). destruct V as (m & V).
      pose proof (proj2 (external_vault _ _ _ _ _ _ X Hi V)). lia.
Qed.

(** C40 *)
Lemma supply_step e w ev w' k s : env_ok e -> reachable e w -> step e w ev w' -> pool_at w k s ->
  supply w (st_pool_mint s) < supply w' (st_pool_mint s) ->
  exists signers i, ev = Instruction signers i /\ mints i /\ named_pool i = k.
Proof.
  intros He R S Hp Lt. pose proof (reachable_inv _ _ He R) as I.
  revert R I Hp Lt. destruct S as [w1 sg i w2 Sg Hpk H | w1 w2 X]; intros R I Hp Lt.
  - exists sg, i. split; [reflexivity |].
    assert (D : mints i \/ ~ mints i) by (destruct i; cbn; auto).
    destruct D as [P | P], (Z.eq_dec (named_pool i) k) as [E | E]; auto;
      exfalso; pose proof (mint_protected _ _ _ _ _ _ _ He I Sg Hpk H Hp) as M;
      assert (supply w2 (st_pool_mint s) <= supply w1 (st_pool_mint s)) by auto; lia.
  - exfalso. destruct I as (_ & I). specialize (I _ _ Hp). pose proof (pool_pda _ _ _ _ He I) as Hpda.
    destruct I as (au & Hf & _ & _ & _ & _ & _ & _ & (m & M & A & F) & _). destruct (Hpda _ _ Hf) as (_ & Hi).
    pose proof (proj2 (external_mint _ _ _ _ _ _ X Hi M A F)). lia.
Qed.

(** C46 *)
Lemma pools_isolated e signers w i w' k s : env_ok e -> reachable e w -> signers_ok e signers ->
  Forall is_pubkey (instr_accounts i) -> exec e signers w i = Ok w' -> pool_at w k s -> named_pool i <> k ->
  pool_at w' k s /\ balance w (st_token_a s) <= balance w' (st_token_a s) /\
  balance w (st_token_b s) <= balance w' (st_token_b s) /\
  supply w' (st_pool_mint s) <= supply w (st_pool_mint s).
Proof.
  intros He R Sg Hpk H Hp N. pose proof (reachable_inv _ _ He R) as I.
  split; [exact (exec_pool_stays _ _ _ _ _ _ _ He (proj1 I) Hpk H Hp) |].
  split; [eapply vault_protected; eauto; unfold vault_of_pool; auto |].
  split; [eapply vault_protected; eauto; unfold vault_of_pool; auto |].
  eapply mint_protected; eauto.
Qed.

(** C48 *)
Lemma reachable_pool e w k s : env_ok e -> reachable e w -> pool_at w k s -> pool_ok e w k s.
Proof. intros He R. exact (proj2 (reachable_inv _ _ He R) k s). Qed.
