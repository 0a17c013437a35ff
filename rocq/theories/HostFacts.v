(** Swaps that name a host. *)
From Verif Require Import Ints Tactics Fees LinearCurve SwapCurve Codec Token Processor Api History
  Spec LedgerSpec CallSpec CurveFacts SwapFacts LinearProps CodecFacts TokenFacts ProcFacts AmountFacts EffectFacts CreateFacts
  CallFacts ExactFacts QuoteSpec QuoteFacts QuoteCurves HostSpec.

Lemma same_kind w w' k t m : sans_allowance (w' k) = sans_allowance (w k) ->
  token_at w k t /\ t_mint t = m -> exists t', token_at w' k t' /\ t_mint t' = m.
Proof.
  unfold token_at. intros E ((O & D) & <-). unfold sans_allowance in E. rewrite D in E.
  destruct (w' k) as [o [t' | m' | l]]; cbn [a_owner a_data] in *; try discriminate.
  exists t'. injection E as E1 E2 E3 E4 E5 E6. rewrite E1, <- O. auto.
Qed.

Lemma sans_kept signed w c w' k : call_ok signed w c w' -> sans_allowance (w' k) = sans_allowance (w k).
Proof.
  intros H. assert (C : calls_ok signed w [c] w') by (exists w'; split; [exact H | reflexivity]).
  apply calls_iff in C. apply run_effect in C. apply C.
Qed.

Lemma host_fee_ok e signers w w1 s k au mint fee host rest pt w' auth :
  fees_wf (st_fees s) -> st_token_program_id s = TOKEN_PROGRAM_ID ->
  (forall j, sans_allowance (w1 j) = sans_allowance (w j)) ->
  create_pda e k (st_bump_seed s) = Some auth ->
  mint_owner_fee e signers w1 s k au mint fee TOKEN_PROGRAM_ID (host :: rest) pt = Ok w' <->
  exists share, host_gets w (st_fees s) mint host pt share /\ share <= u64_max /\ pt - share <= u64_max /\
    calls_ok (auth :: signers) w1 (if_any share (CMint mint host au share) ++
      if_any pt (CMint mint fee au (pt - share))) w'.
Proof.
  intros F Htp S P. unfold mint_owner_fee, host_gets.
  destruct F as (_ & _ & _ & _ & _ & _ & F1 & F2). unfold is_u64 in F1, F2.
  destruct (Z.ltb_spec 0 pt) as [L | L].
  - assert (FE : host_fee (st_fees s) pt = fee_of pt (host_fee_num (st_fees s)) (host_fee_den (st_fees s)))
      by (apply fee_of_eq; lia).
    rewrite Htp. split.
    + intros H. apply rbind_ok in H. destruct H as ([w2 amount] & H & H').
      apply rbind_ok in H'. destruct H' as (y & Hy & H'). apply to_u64_ok in Hy. destruct Hy as [-> Hy].
      apply rbind_ok in H. destruct H as (t & Ht & H). apply unpack_token_ok in Ht.
      apply rbind_ok in H. destruct H as (u & Hu & H). apply guard_ok in Hu. apply negb_false_iff, Z.eqb_eq in Hu.
      apply rbind_ok in H. destruct H as (share & Hf & H). rewrite FE in Hf.
      destruct (fee_of pt _ _) as [x | |] eqn:Ef; try discriminate. injection Hf as ->.
      pose proof (fee_of_nonneg pt _ _ _ ltac:(lia) (proj1 F1) (proj1 F2) Ef) as N.
      eapply token_mint_to_ok in H'; [| exact P]. destruct H' as [_ H'].
      destruct (same_kind w1 w host t mint (eq_sym (S host)) (conj Ht (eq_sym Hu))) as (t' & T').
      exists share. unfold if_any. rewrite (proj2 (Z.ltb_lt 0 pt) L).
      destruct (Z.ltb_spec 0 share) as [Q | Q].
      * apply rbind_ok in H. destruct H as (z & Hz & H).
        destruct (csub pt share) as [z' | |] eqn:Es; try discriminate. injection Hz as ->.
        apply csub_val in Es. destruct Es as [-> Le].
        apply rbind_ok in H. destruct H as (z' & Hz & H). apply to_u64_ok in Hz. destruct Hz as [-> Hz].
        apply rbind_ok in H. destruct H as (w3 & H & H''). injection H'' as <- <-.
        eapply token_mint_to_ok in H; [| exact P]. destruct H as [_ H].
        split; [right; split; [exact L |]; split; [exists t'; exact T' |]; auto |].
        split; [exact Hz |]. split; [exact Hy |].
        exists w3. split; [now apply mint_iff |]. exists w'. split; [now apply mint_iff | reflexivity].
      * injection H as <- <-. assert (share = 0) by lia. subst share. rewrite Z.sub_0_r.
        split; [right; split; [exact L |]; split; [exists t'; exact T' |]; split; [reflexivity | lia] |].
        split; [unfold u64_max; lia |]. split; [exact Hy |].
        exists w'. split; [now apply mint_iff | reflexivity].
    + intros (share & [(X & _) | (_ & (t & T) & Ef & Le)] & U1 & U2 & C); [lia |].
      pose proof (fee_of_nonneg pt _ _ _ ltac:(lia) (proj1 F1) (proj1 F2) Ef) as N.
      destruct (same_kind w w1 host t mint (S host) T) as (t' & T' & M').
      apply calls_app in C. destruct C as (w2 & C1 & C2).
      unfold if_any in C1, C2. rewrite (proj2 (Z.ltb_lt 0 pt) L) in C2. destruct C2 as (w3 & C2 & ->).
      eapply bind_eq with (a := (w2, pt - share)).
      { bd (unpack_token_eq _ _ _ T'). gd_with ltac:(rewrite M', Z.eqb_refl; reflexivity).
        rewrite FE, Ef. cbn [ok_or rbind]. destruct (Z.ltb_spec 0 share) as [Q | Q].
        - destruct C1 as (w3' & C1 & ->). rewrite (csub_eq _ _ Le). cbn [ok_or rbind].
          rewrite (to_u64_eq _ U1). cbn [rbind]. rewrite (mint_eq' _ _ _ _ _ _ _ _ _ _ _ P C1). reflexivity.
        - cbn [calls_ok] in C1. subst w2. assert (share = 0) by lia. subst share. rewrite Z.sub_0_r. reflexivity. }
      cbv beta iota. bd (to_u64_eq _ U2). exact (mint_eq' _ _ _ _ _ _ _ _ _ _ _ P C2).
  - split.
    + intros H. injection H as <-. exists 0. split; [left; auto |]. unfold if_any.
      apply Z.ltb_ge in L. rewrite L. cbn. unfold u64_max. split; [lia |]. split; [lia | reflexivity].
    + intros (share & [(_ & ->) | (X & _)] & _ & _ & C); [| lia]. unfold if_any in C.
      apply Z.ltb_ge in L. rewrite L in C. cbn in C. congruence.
Qed.

Ltac vaults s :=
  repeat match goal with H : (_ =? st_token_a s) || (_ =? st_token_b s) = true |- _ => apply or_eq in H end;
  repeat match goal with H : _ = st_token_a s \/ _ = st_token_b s |- _ => destruct H end;
  repeat match goal with H : false || (_ =? st_token_b s) = true |- _ => cbn [orb] in H; apply Z.eqb_eq in H end; subst;
  try contradiction; first [left; split; congruence | right; split; congruence | exfalso; congruence].

Lemma swap_with_host e signers w ain mout pool authority user source ssrc sdst dest mint fee tp host rest w' :
  world_wf w ->
  process_swap e signers w ain mout
    (pool :: authority :: user :: source :: ssrc :: sdst :: dest :: mint :: fee :: tp :: host :: rest) = Ok w' <->
  host_swap_spec e signers w
    (pool :: authority :: user :: source :: ssrc :: sdst :: dest :: mint :: fee :: tp :: host :: rest) ain mout w'.
Proof.
  intros W. split.
  - intros H. cbn [process_swap] in H.
    apply rbind_ok in H. destruct H as (u1 & G & H). apply guard_ok in G. apply negb_false_iff, Z.eqb_eq in G.
    apply rbind_ok in H. destruct H as (s & Hst & H).
    assert (Hp : pool_at w pool s) by (split; assumption). clear u1.
    destruct (pool_wf _ _ _ W Hp) as (Ws & _). destruct Ws as (_ & _ & _ & _ & _ & _ & _ & _ & Wf & _).
    remember (host :: rest) as more eqn:Em.
    pinv; step_facts; bools;
    match goal with H : create_pda e _ _ = Some _ |- _ => rename H into Hpda end;
    repeat match goal with
    | H : token_transfer _ _ _ _ _ _ _ _ _ _ = Ok _ |- _ =>
        eapply token_transfer_ok in H; [| exact Hpda]; destruct H as [? H]; apply transfer_iff in H
    end; subst;
    match goal with H : st_token_program_id _ = TOKEN_PROGRAM_ID |- _ => rename H into Htp end;
    rewrite ?Htp in *;
    match goal with
    | H : call_ok _ w _ ?w1, H' : mint_owner_fee _ _ ?w1 _ _ _ _ _ _ _ _ = Ok _ |- _ =>
        rename H into C1; rename H' into C2 end;
    (match type of Hpda with _ = Some ?a => apply (host_fee_ok e signers w) with (auth := a) in C2 end;
      [| assumption | assumption | intros j; exact (sans_kept _ _ _ _ j C1) | assumption]);
    destruct C2 as (share & Hg & U1 & U2 & C2);
    do 16 eexists; (split; [reflexivity |]); (split; [exact Hp |]); (split; [exact Htp |]);
    (split; [eassumption |]);
    (split; [vaults s |]); (split; [assumption |]); (split; [congruence |]); (split; [congruence |]);
    (split; [split; eassumption |]); (split; [split; eassumption |]); (split; [split; eassumption |]);
    cbv zeta; [rewrite Z.eqb_refl | rewrite (proj2 (Z.eqb_neq _ _) Dir)];
    (split; [eassumption |]); (split; [split; assumption |]); (split; [assumption |]);
    (split; [eassumption |]); (split; [exact Hg |]); (split; [exact U1 |]); (split; [exact U2 |]);
    eexists; (split; [exact C1 |]); rewrite app_assoc; apply calls_app; eexists; (split; [exact C2 |]);
    eexists; (split; [eassumption | reflexivity]).
  - intros (pool' & authority' & user' & source' & ssrc' & sdst' & dest' & host' & rest' & s & ta & tb & pm & r & pt
      & share & E & Hp & Htp & Hpda & Hv & N1 & N2 & N3 & T1 & T2 & T3 & Hq & B1 & B2 & Hf & Hg & U1 & U2 & Hc).
    injection E as -> -> -> -> -> -> -> -> -> -> -> ->.
    destruct (pool_wf _ _ _ W Hp) as (Ws & _). destruct Ws as (_ & _ & _ & _ & _ & _ & _ & _ & Wf & _).
    cbv zeta in Hq, Hf. destruct Hp as [Hown Hst].
    destruct Hc as (w1 & C1 & Hc). rewrite app_assoc in Hc. apply calls_app in Hc. destruct Hc as (w2 & C2 & (w3 & C3 & ->)).
    assert (F : mint_owner_fee e signers w1 s pool' authority' (st_pool_mint s) (st_pool_fee_account s) TOKEN_PROGRAM_ID
      (host' :: rest') pt = Ok w2).
    { apply (host_fee_ok e signers w) with (auth := authority'); [exact Wf | exact Htp | intros j; exact (sans_kept _ _ _ _ j C1) | exact Hpda |].
      exists share. auto. }
    remember (host' :: rest') as more eqn:Em.
    cbn [process_swap]. rewrite Hown. gd_with ltac:(reflexivity).
    bd Hst. bd (authority_eq _ _ _ _ Hpda). rewrite Htp.
    gd_with ltac:(rewrite Z.eqb_refl; reflexivity).
    gd_with ltac:(destruct Hv as [(-> & _) | (-> & _)]; rewrite Z.eqb_refl, ?orb_true_r; reflexivity).
    gd_with ltac:(destruct Hv as [(_ & ->) | (_ & ->)]; rewrite Z.eqb_refl, ?orb_true_r; reflexivity).
    do 3 (gd; [neq |]).
    do 3 (gd_with ltac:(rewrite Z.eqb_refl; reflexivity)).
    bd (unpack_token_eq _ _ _ T1). bd (unpack_token_eq _ _ _ T2). bd (unpack_mint_eq _ _ _ T3).
    cbv zeta. eapply bind_eq. { rewrite Hq. reflexivity. } cbv beta.
    gd_with ltac:(apply Z.ltb_ge; tauto).
    assert (E : forall X (k : Z -> Z -> X) d, (let (a, b) := match d with
        | AtoB => (new_swap_source_amount r, new_swap_destination_amount r)
        | BtoA => (new_swap_destination_amount r, new_swap_source_amount r) end in k a b)
        = k (side_a d (new_swap_source_amount r) (new_swap_destination_amount r))
            (side_b d (new_swap_source_amount r) (new_swap_destination_amount r))) by (intros X k []; reflexivity).
    rewrite E. clear E.
    bd (to_u64_eq _ B2). bd (transfer_eq _ _ _ _ _ _ _ _ _ _ _ Hpda C1).
    eapply bind_eq. { rewrite Hf. reflexivity. } cbv beta.
    bd F. bd (to_u64_eq _ (proj2 B1)).
    exact (transfer_eq _ _ _ _ _ _ _ _ _ _ _ Hpda C3).
Qed.

Lemma map_if_any x c : map op_of (if_any x c) = when x (op_of c).
Proof. unfold if_any, when. destruct (0 <? x); reflexivity. Qed.

Lemma host_swap_effect e signers w ain mout pool authority user source ssrc sdst dest mint fee tp host rest w' :
  world_wf w -> is_u64 ain ->
  process_swap e signers w ain mout
    (pool :: authority :: user :: source :: ssrc :: sdst :: dest :: mint :: fee :: tp :: host :: rest) = Ok w' ->
  exists s r minted share, pool_at w pool s /\
    let d := if ssrc =? st_token_a s then AtoB else BtoA in
    let x := source_amount_swapped r in let y := destination_amount_swapped r in
    curve_swap (st_curve s) ain (balance w ssrc) (balance w sdst) d (st_fees s) = Val r /\
    curve_withdraw_single (st_curve s) (owner_fee r)
      (side_a d (balance w ssrc + x) (balance w sdst - y))
      (side_b d (balance w ssrc + x) (balance w sdst - y)) (supply w mint) d (st_fees s) = Val minted /\
    fee_of minted (host_fee_num (st_fees s)) (host_fee_den (st_fees s)) = Val share /\
    0 <= share <= minted /\
    ledger_change w w'
      (fun k => only_at ssrc k x - only_at source k x + only_at dest k y - only_at sdst k y
                + only_at host k share + only_at fee k (minted - share))
      (fun k => only_at mint k minted)
      [source; ssrc; mint; host; fee; sdst; dest] [source; sdst].
Proof.
  intros W Ha H. apply swap_with_host in H; [| exact W].
  destruct H as (pool' & authority' & user' & source' & ssrc' & sdst' & dest' & host' & rest' & s & ta & tb & pm & r & pt
      & share & E & Hp & _ & _ & _ & _ & _ & _ & Hta & Htb & Hpm & Hsw & _ & _ & Hpt & Hg & _ & _ & Hrun).
  injection E as <- <- <- <- <- <- <- -> -> _ <- <-.
  exists s, r, pt, share. split; [exact Hp |]. cbv zeta in *.
  rewrite (token_balance _ _ _ Hta), (token_balance _ _ _ Htb), (mint_supply _ _ _ Hpm).
  destruct (pool_wf _ _ _ W Hp) as (Ws & _). destruct Ws as (_ & _ & _ & _ & _ & _ & _ & _ & Wf & Wc).
  pose proof (token_u64 _ _ _ W Hta) as Ua. pose proof (token_u64 _ _ _ W Htb) as Ub.
  pose proof (curve_swap_bounds _ _ _ _ _ _ _ Wc Wf Ha Ua Ub Hsw) as (B1 & B2 & B3 & B4 & B5 & B6 & _).
  rewrite <- B5, <- B6.
  assert (P0 : 0 <= pt).
  { pose proof (mint_u64 _ _ _ W Hpm). unfold is_u64 in *.
    eapply withdraw_single_nonneg; [exact Wc | | | | exact Hpt]; destruct (ssrc =? st_token_a s); cbn [side_a side_b]; lia. }
  split; [exact Hsw |]. split; [exact Hpt |].
  assert (F : fee_of pt (host_fee_num (st_fees s)) (host_fee_den (st_fees s)) = Val share /\ share <= pt).
  { destruct Hg as [(L & ->) | (_ & _ & F & L)]; [| auto]. replace pt with 0 by lia. split; [| lia].
    unfold fee_of. now rewrite orb_true_r. }
  destruct F as (F & Le). split; [exact F |].
  assert (N : 0 <= share).
  { destruct Wf as (_ & _ & _ & _ & _ & _ & F1 & F2). exact (fee_of_nonneg pt _ _ _ P0 (proj1 F1) (proj1 F2) F). }
  split; [split; assumption |].
  apply calls_iff in Hrun. cbn [map] in Hrun. rewrite !map_app, !map_if_any in Hrun. cbn [map op_of] in Hrun.
  apply run_change in Hrun. eapply change_weaken; [exact Hrun | | | |]; intros k.
  - cbn [sum_ops op_balance]. rewrite !sum_app. cbn [sum_ops op_balance].
    rewrite (sum_when op_balance share) by (intros E; cbn; apply only_at_zero, zero_of; assumption).
    rewrite (sum_when op_balance pt) by (intros E; cbn; apply only_at_zero; apply zero_of in E; lia).
    cbn [op_balance]. lia.
  - cbn [sum_ops op_supply]. rewrite !sum_app. cbn [sum_ops op_supply].
    rewrite (sum_when op_supply share) by (intros E; cbn; apply only_at_zero, zero_of; assumption).
    rewrite (sum_when op_supply pt) by (intros E; cbn; apply only_at_zero; apply zero_of in E; lia).
    cbn [op_supply]. unfold only_at. destruct (k =? st_pool_mint s); lia.
  - intros Hk.
    change (In k (op_keys (OTransfer source ssrc user (source_amount_swapped r)) ++
      ops_keys (when share (OMint (st_pool_mint s) host authority share) ++
        when pt (OMint (st_pool_mint s) (st_pool_fee_account s) authority (pt - share)) ++
        [OTransfer sdst dest authority (destination_amount_swapped r)]))) in Hk.
    rewrite !keys_app in Hk. rewrite !in_app_iff in Hk. destruct Hk as [Hk | [Hk | [Hk | Hk]]].
    + cbn in *. tauto.
    + apply keys_when in Hk. cbn in *. tauto.
    + apply keys_when in Hk. cbn in *. tauto.
    + cbn in *. tauto.
  - intros Hk.
    change (In k (source :: ops_sources (when share (OMint (st_pool_mint s) host authority share) ++
        when pt (OMint (st_pool_mint s) (st_pool_fee_account s) authority (pt - share)) ++
        [OTransfer sdst dest authority (destination_amount_swapped r)]))) in Hk.
    rewrite !sources_app in Hk. destruct Hk as [Hk | Hk]; [cbn; tauto |]. rewrite !in_app_iff in Hk.
    destruct Hk as [Hk | [Hk | Hk]]; [apply sources_when in Hk; destruct Hk .. | cbn in *; tauto].
Qed.

Lemma no_host e signers w accounts more ain mout : length accounts = 10%nat ->
  exec e signers w (Swap (accounts ++ more) ain mout) = exec e signers w (Swap accounts ain mout).
Proof.
  intros L. do 10 (destruct accounts as [| ? accounts]; [discriminate |]). destruct accounts; [| discriminate].
  reflexivity.
Qed.
