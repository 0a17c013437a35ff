(** The token-program calls succeed exactly as specified. *)
From Verif Require Import Ints Tactics Fees LinearCurve SwapCurve Codec Token Processor Api History
  Spec LedgerSpec CallSpec CurveFacts TokenFacts.

Lemma multisig_iff a : is_multisig a = true <->
  a_owner a = TOKEN_PROGRAM_ID /\ exists l, a_data a = DRaw l /\ length l = 355%nat.
Proof.
  unfold is_multisig. rewrite andb_true_iff, Z.eqb_eq. split; intros (H1 & H2); (split; [exact H1 |]).
  - destruct (a_data a) as [ | | l]; try discriminate. exists l. split; [reflexivity |]. now apply Nat.eqb_eq.
  - destruct H2 as (l & -> & H2). now apply Nat.eqb_eq.
Qed.

Lemma validate_owner_iff w signed e a u :
  validate_owner w signed e a = Ok u <-> e = a /\ signs w signed a.
Proof.
  unfold validate_owner, signs. rewrite <- multisig_iff. split.
  - intros H. inv. bools. split; [assumption |]. split; [now apply mem_In |].
    intros H'. congruence.
  - intros (-> & H1 & H2). apply not_true_is_false in H2. rewrite Z.eqb_refl, H2.
    apply mem_In in H1. rewrite H1. destruct u. reflexivity.
Qed.

Lemma optZ_eqb_iff o k : optZ_eqb o k = true <-> o = Some k.
Proof.
  destruct o; cbn [optZ_eqb]; [rewrite Z.eqb_eq | ]; split; congruence.
Qed.

Lemma authorize_iff w signed t a x t1 :
  x <= t_amount t ->
  (authorize_debit w signed t a x = Ok t1 /\ True) <->
  debit w signed t a x (mk_account TOKEN_PROGRAM_ID (DToken (with_amount t1 (t_amount t - x)))) /\
  t_amount t1 = t_amount t.
Proof.
  intros Hx. unfold authorize_debit, debit, retoken.
  destruct (optZ_eqb (t_delegate t) a) eqn:E.
  - apply optZ_eqb_iff in E. split.
    + intros (H & _). inv. bools.
      match goal with H : validate_owner _ _ _ _ = _ |- _ => apply validate_owner_iff in H; destruct H as [_ H] end.
      split; [| reflexivity]. split; [assumption |]. split; [assumption |]. left.
      split; [assumption |]. split; [assumption |].
      unfold with_amount, with_delegation. cbn. rewrite E.
      destruct (Z.eqb_spec (t_delegated_amount t - x) 0), (Z.eqb_spec (t_delegated_amount t) x);
        try lia; reflexivity.
    + intros ((Hs & _ & [(_ & Hd & Ht) | (Hd & _)]) & Ha); [| contradiction].
      split; [| exact I]. apply rbind_ok. exists tt. split; [apply validate_owner_iff; auto |].
      apply rbind_ok. exists tt. split; [apply guard_ok, Z.ltb_ge; assumption |].
      f_equal. destruct t1. unfold with_amount, with_delegation in *. cbn in *.
      injection Ht as -> -> -> -> -> -> ->. rewrite E. subst.
      destruct (Z.eqb_spec (t_delegated_amount t - x) 0), (Z.eqb_spec (t_delegated_amount t) x);
        try lia; reflexivity.
  - assert (Hd : t_delegate t <> Some a) by (intros H; apply optZ_eqb_iff in H; congruence). split.
    + intros (H & _). inv.
      match goal with H : validate_owner _ _ _ _ = _ |- _ => apply validate_owner_iff in H; destruct H as [Ho H] end.
      split; [| reflexivity]. split; [assumption |]. split; [assumption |]. right.
      split; [assumption |]. split; [assumption |]. reflexivity.
    + intros ((Hs & _ & [(Hd' & _) | (_ & Ho & Ht)]) & Ha); [contradiction |].
      split; [| exact I]. apply rbind_ok. exists tt. split; [apply validate_owner_iff; auto |].
      f_equal. destruct t1, t. unfold with_amount in *. cbn in *. injection Ht as -> -> -> -> -> -> ->. subst. reflexivity.
Qed.

Lemma debit_shape w signed t a x t' : debit w signed t a x t' ->
  exists t1, t' = mk_account TOKEN_PROGRAM_ID (DToken (with_amount t1 (t_amount t - x))) /\
             t_amount t1 = t_amount t /\ authorize_debit w signed t a x = Ok t1.
Proof.
  intros H. assert (Hx : x <= t_amount t) by (destruct H as (_ & H & _); exact H).
  assert (E : exists t1, t' = mk_account TOKEN_PROGRAM_ID (DToken (with_amount t1 (t_amount t - x))) /\
             t_amount t1 = t_amount t).
  { destruct H as (_ & _ & [(_ & _ & ->) | (_ & _ & ->)]).
    - exists (with_delegation t (if t_delegated_amount t =? x then None else Some a) (t_delegated_amount t - x)).
      split; reflexivity.
    - exists t. split; reflexivity. }
  destruct E as (t1 & -> & Ha). exists t1. split; [reflexivity |]. split; [exact Ha |].
  apply (authorize_iff w signed t a x t1 Hx). auto.
Qed.

Lemma transfer_iff w signed s d a x w' :
  spl_transfer w signed s d a x = Ok w' <-> call_ok signed w (CTransfer s d a x) w'.
Proof.
  unfold spl_transfer. cbn [call_ok]. split.
  - intros H. inv.
    match goal with H : get_token w s = Ok ?x |- _ => rename x into ts; rename H into Hs end.
    match goal with H : get_token w d = Ok ?x |- _ => rename x into td; rename H into Hd end.
    match goal with H : authorize_debit _ _ _ _ _ = Ok ?x |- _ => rename x into ts'; rename H into Ha end.
    apply get_token_ok in Hs, Hd. bools.
    assert (Hx : x <= t_amount ts) by assumption.
    pose proof (proj1 (authorize_iff _ _ _ _ _ _ Hx) (conj Ha I)) as [Hdeb _].
    exists ts, td. eexists. do 5 (split; [eassumption |]). split; [exact Hdeb |].
    match goal with H : (if _ then _ else _) = _ |- _ => rename H into Hk end.
    destruct (Z.eqb_spec s d) as [E | E]; [left; split; [exact E | congruence] |].
    right. inv. bools. split; [exact E |]. split; [assumption |].
    unfold set_token. rewrite (upd_other w s _ d) by congruence.
    destruct Hs as [-> _], Hd as [-> _]. reflexivity.
  - intros (ts & td & ts' & Hs & Hd & Fs & Fd & Hm & Hdeb & Hw).
    pose proof Hdeb as (_ & Hx & _).
    apply debit_shape in Hdeb. destruct Hdeb as (t1 & -> & _ & Ha).
    pose proof Hs as Hs'. pose proof Hd as Hd'.
    apply get_token_ok in Hs', Hd'. rewrite Hs', Hd'. cbn [rbind]. rewrite Fs, Fd. cbn [orb guard rbind].
    apply rbind_ok. exists tt. split; [apply guard_ok, Z.ltb_ge; assumption |].
    rewrite Hm, Z.eqb_refl. cbn [negb guard rbind]. rewrite Ha. cbn [rbind].
    destruct Hw as [(-> & ->) | (Ne & Hu & ->)]; [rewrite Z.eqb_refl; reflexivity |].
    rewrite (proj2 (Z.eqb_neq s d) Ne). apply rbind_ok. exists tt.
    split; [apply guard_ok, Z.ltb_ge; assumption |].
    unfold set_token. rewrite (upd_other w s _ d) by congruence.
    destruct Hs as [-> _], Hd as [-> _]. reflexivity.
Qed.

Lemma mint_iff w signed m d a x w' :
  spl_mint_to w signed m d a x = Ok w' <-> call_ok signed w (CMint m d a x) w'.
Proof.
  unfold spl_mint_to. cbn [call_ok]. split.
  - intros H. inv.
    match goal with H : get_mint w _ = Ok ?x |- _ => rename x into mt; rename H into Hmint end.
    match goal with H : get_token w d = Ok ?x |- _ => rename x into td; rename H into Hd end.
    apply get_token_ok in Hd. apply get_mint_ok in Hmint. bools. subst.
    assert (Ne : t_mint td <> d) by (intros E; rewrite E in Hmint; exact (token_not_mint _ _ _ _ Hd Hmint)).
    exists mt, td. do 5 (split; [auto |]).
    destruct (m_authority mt) as [au |] eqn:Eau; [| discriminate].
    match goal with H : validate_owner _ _ _ _ = Ok ?u |- _ => apply validate_owner_iff in H; destruct H as [-> Hin] end.
    do 4 (split; [auto |]).
    unfold set_token, set_mint. rewrite (upd_other w d _ (t_mint td)) by exact Ne.
    destruct Hd as [-> _], Hmint as [-> _]. reflexivity.
  - intros (mt & td & Hmint & Hd & F & N & Hm & Hau & Hs & B1 & B2 & ->).
    assert (Ne : m <> d) by (intros ->; exact (token_not_mint _ _ _ _ Hd Hmint)).
    pose proof Hd as Hd'. pose proof Hmint as Hmint'.
    apply get_token_ok in Hd'. apply get_mint_ok in Hmint'.
    rewrite Hd'. cbn [rbind]. rewrite F, N. cbn [guard rbind]. rewrite Hm, Z.eqb_refl. cbn [negb guard rbind].
    rewrite Hmint'. cbn [rbind]. rewrite Hau. apply rbind_ok. exists tt.
    split; [apply validate_owner_iff; auto |].
    apply rbind_ok. exists tt. split; [apply guard_ok, Z.ltb_ge; assumption |].
    apply rbind_ok. exists tt. split; [apply guard_ok, Z.ltb_ge; assumption |].
    unfold set_token, set_mint. rewrite (upd_other w d _ m) by exact Ne.
    destruct Hd as [-> _], Hmint as [-> _]. reflexivity.
Qed.

Lemma burn_iff w signed s m a x w' :
  spl_burn w signed s m a x = Ok w' <-> call_ok signed w (CBurn s m a x) w'.
Proof.
  unfold spl_burn. cbn [call_ok]. split.
  - intros H. inv.
    match goal with H : get_mint w _ = Ok ?x |- _ => rename x into mt; rename H into Hmint end.
    match goal with H : get_token w s = Ok ?x |- _ => rename x into ts; rename H into Hs end.
    match goal with H : authorize_debit _ _ _ _ _ = Ok ?x |- _ => rename x into ts'; rename H into Ha end.
    apply get_token_ok in Hs. apply get_mint_ok in Hmint. bools. subst.
    assert (Hx : x <= t_amount ts) by assumption.
    pose proof (proj1 (authorize_iff _ _ _ _ _ _ Hx) (conj Ha I)) as [Hdeb _].
    assert (Ne : t_mint ts <> s) by (intros E; rewrite E in Hmint; exact (token_not_mint _ _ _ _ Hs Hmint)).
    exists mt, ts. eexists. do 5 (split; [auto |]). split; [exact Hdeb |]. split; [assumption |].
    unfold set_token, set_mint. rewrite (upd_other w s _ (t_mint ts)) by exact Ne.
    destruct Hs as [-> _], Hmint as [-> _]. reflexivity.
  - intros (mt & ts & ts' & Hmint & Hs & F & N & Hm & Hdeb & B & ->).
    pose proof Hdeb as (_ & Hx & _).
    apply debit_shape in Hdeb. destruct Hdeb as (t1 & -> & _ & Ha).
    assert (Ne : m <> s) by (intros ->; exact (token_not_mint _ _ _ _ Hs Hmint)).
    pose proof Hs as Hs'. pose proof Hmint as Hmint'.
    apply get_token_ok in Hs'. apply get_mint_ok in Hmint'.
    rewrite Hs', Hmint'. cbn [rbind]. rewrite F, N. cbn [guard rbind].
    apply rbind_ok. exists tt. split; [apply guard_ok, Z.ltb_ge; assumption |].
    rewrite Hm, Z.eqb_refl. cbn [negb guard rbind]. rewrite Ha. cbn [rbind].
    apply rbind_ok. exists tt. split; [apply guard_ok, Z.ltb_ge; assumption |].
    unfold set_token, set_mint. rewrite (upd_other w s _ m) by exact Ne.
    destruct Hs as [-> _], Hmint as [-> _]. reflexivity.
Qed.

Definition op_of (c : call) : op :=
  match c with
  | CTransfer s d a x => OTransfer s d a x
  | CMint m d a x => OMint m d a x
  | CBurn s m a x => OBurn s m a x
  end.

Lemma apply_iff signed w c w' : apply_op signed w (op_of c) = Ok w' <-> call_ok signed w c w'.
Proof. destruct c; [apply transfer_iff | apply mint_iff | apply burn_iff]. Qed.

Lemma calls_iff signed l : forall w w', run_ops signed w (map op_of l) = Ok w' <-> calls_ok signed w l w'.
Proof.
  induction l as [| c l IH]; intros w w'; cbn [map run_ops calls_ok].
  - split; congruence.
  - rewrite rbind_ok. split; intros (w1 & H1 & H2); exists w1; (split; [now apply apply_iff |]); now apply IH.
Qed.

Lemma calls_app signed l1 l2 : forall w w', calls_ok signed w (l1 ++ l2) w' <->
  exists w1, calls_ok signed w l1 w1 /\ calls_ok signed w1 l2 w'.
Proof.
  induction l1 as [| c l1 IH]; intros w w'; cbn [app calls_ok].
  - split; [intros H; exists w; auto | intros (w1 & -> & H); exact H].
  - split.
    + intros (w1 & H1 & H2). apply IH in H2. destruct H2 as (w2 & H2 & H3). exists w2. split; [| exact H3].
      exists w1. auto.
    + intros (w2 & (w1 & H1 & H2) & H3). exists w1. split; [exact H1 |]. apply IH. exists w2. auto.
Qed.
