(** Effects of token-program calls, and of sequences of them. *)
From Verif Require Import Ints Tactics Fees SwapCurve Codec Token Processor Spec History LedgerSpec.

Lemma upd_same w k a : upd w k a k = a.
Proof. unfold upd. now rewrite Z.eqb_refl. Qed.
Lemma upd_other w k a k' : k' <> k -> upd w k a k' = w k'.
Proof. intros H. unfold upd. destruct (Z.eqb_spec k' k); [contradiction | reflexivity]. Qed.

Lemma get_token_ok w k t : get_token w k = Ok t <-> token_at w k t.
Proof.
  unfold get_token, token_at. destruct (Z.eqb_spec (a_owner (w k)) TOKEN_PROGRAM_ID) as [E | E].
  - destruct (a_data (w k)); split; intros H; try discriminate; try (destruct H; congruence).
    split; congruence.
  - split; [discriminate | intros (H & _); contradiction].
Qed.
Lemma get_mint_ok w k m : get_mint w k = Ok m <-> mint_at w k m.
Proof.
  unfold get_mint, mint_at. destruct (Z.eqb_spec (a_owner (w k)) TOKEN_PROGRAM_ID) as [E | E].
  - destruct (a_data (w k)); split; intros H; try discriminate; try (destruct H; congruence).
    split; congruence.
  - split; [discriminate | intros (H & _); contradiction].
Qed.

Lemma token_balance w k t : token_at w k t -> balance w k = t_amount t.
Proof. intros (H1 & H2). unfold balance. now rewrite H1, H2, Z.eqb_refl. Qed.
Lemma token_supply w k t : token_at w k t -> supply w k = 0.
Proof. intros (H1 & H2). unfold supply. now rewrite H1, H2, Z.eqb_refl. Qed.
Lemma mint_balance w k m : mint_at w k m -> balance w k = 0.
Proof. intros (H1 & H2). unfold balance. now rewrite H1, H2, Z.eqb_refl. Qed.
Lemma mint_supply w k m : mint_at w k m -> supply w k = m_supply m.
Proof. intros (H1 & H2). unfold supply. now rewrite H1, H2, Z.eqb_refl. Qed.
Lemma token_not_mint w k t m : token_at w k t -> mint_at w k m -> False.
Proof. intros (_ & H) (_ & H'). congruence. Qed.
Lemma token_fun w k t t' : token_at w k t -> token_at w k t' -> t = t'.
Proof. intros (_ & H) (_ & H'). congruence. Qed.
Lemma mint_fun w k t t' : mint_at w k t -> mint_at w k t' -> t = t'.
Proof. intros (_ & H) (_ & H'). congruence. Qed.

Lemma same_balance w w' k : w' k = w k -> balance w' k = balance w k.
Proof. intros H. unfold balance. now rewrite H. Qed.
Lemma same_supply w w' k : w' k = w k -> supply w' k = supply w k.
Proof. intros H. unfold supply. now rewrite H. Qed.

Lemma mem_In k l : mem k l = true <-> In k l.
Proof.
  unfold mem. rewrite existsb_exists. split.
  - intros (x & H & E). apply Z.eqb_eq in E. congruence.
  - intros H. exists k. split; [exact H | apply Z.eqb_refl].
Qed.

Lemma validate_owner_ok w signed e a : validate_owner w signed e a = Ok tt -> e = a /\ In a signed.
Proof.
  unfold validate_owner. intros H. inv.
  repeat match goal with H : negb _ = false |- _ => apply negb_false_iff in H end.
  split; [now apply Z.eqb_eq | now apply mem_In].
Qed.

(** What the authority [a] did to account [t] when taking [x] from it. *)
Inductive debited (a x : Z) (t : token_account) : token_account -> Prop :=
| debit_by_owner : a = t_owner t -> debited a x t t
| debit_by_delegate : t_delegate t = Some a -> x <= t_delegated_amount t ->
    debited a x t (with_delegation t (if t_delegated_amount t - x =? 0 then None else t_delegate t)
                                   (t_delegated_amount t - x)).

Lemma authorize_debit_ok w signed t a x t' : authorize_debit w signed t a x = Ok t' ->
  In a signed /\ debited a x t t'.
Proof.
  unfold authorize_debit. intros H.
  destruct (optZ_eqb (t_delegate t) a) eqn:E.
  - inv. destruct v. match goal with H : validate_owner _ _ _ _ = _ |- _ => apply validate_owner_ok in H; destruct H as [_ H] end.
    split; [assumption |]. destruct (t_delegate t) as [d |] eqn:Ed; [| discriminate].
    cbn [optZ_eqb] in E. apply Z.eqb_eq in E. subst d. rewrite <- Ed at 1.
    apply debit_by_delegate; [exact Ed |].
    match goal with H : (_ <? _) = false |- _ => apply Z.ltb_ge in H end. lia.
  - inv. destruct v. match goal with H : validate_owner _ _ _ _ = _ |- _ => apply validate_owner_ok in H; destruct H as [H H'] end.
    split; [assumption |]. constructor. congruence.
Qed.

Lemma debited_same a x t t' : debited a x t t' ->
  t_mint t' = t_mint t /\ t_owner t' = t_owner t /\ t_amount t' = t_amount t /\
  t_frozen t' = t_frozen t /\ t_native t' = t_native t /\ t_close_authority t' = t_close_authority t.
Proof. intros []; cbn; auto 10. Qed.

Ltac bools :=
  repeat match goal with
  | H : negb _ = false |- _ => apply negb_false_iff in H
  | H : negb _ = true |- _ => apply negb_true_iff in H
  | H : (_ || _) = false |- _ => apply orb_false_iff in H; destruct H
  | H : (_ && _) = true |- _ => apply andb_prop in H; destruct H
  | H : (_ <? _) = false |- _ => apply Z.ltb_ge in H
  | H : (_ <? _) = true |- _ => apply Z.ltb_lt in H
  | H : (_ <=? _) = true |- _ => apply Z.leb_le in H
  | H : (_ =? _) = true |- _ => apply Z.eqb_eq in H
  | H : (_ =? _) = false |- _ => apply Z.eqb_neq in H
  end.

(** ** The three operations as ledger updates *)
Lemma transfer_ok w signed s d a x w' : spl_transfer w signed s d a x = Ok w' ->
  exists ts td ts', token_at w s ts /\ token_at w d td /\ t_mint ts = t_mint td /\
    x <= t_amount ts /\ In a signed /\ debited a x ts ts' /\
    (s = d /\ w' = w \/
     s <> d /\ t_amount td + x <= u64_max /\
     w' = upd (upd w s (mk_account TOKEN_PROGRAM_ID (DToken (with_amount ts' (t_amount ts - x))))) d
              (mk_account TOKEN_PROGRAM_ID (DToken (with_amount td (t_amount td + x))))).
Proof.
  unfold spl_transfer. intros H. inv.
  match goal with H : get_token w s = Ok ?x |- _ => rename x into ts; rename H into Hs end.
  match goal with H : get_token w d = Ok ?x |- _ => rename x into td; rename H into Hd end.
  match goal with H : authorize_debit _ _ _ _ _ = Ok ?x |- _ => rename x into ts'; rename H into Ha end.
  apply get_token_ok in Hs, Hd. apply authorize_debit_ok in Ha. destruct Ha as [Ha Hb]. bools.
  exists ts, td, ts'. do 6 (split; [assumption |]).
  match goal with H : (if _ then _ else _) = _ |- _ => rename H into Hk end.
  destruct (Z.eqb_spec s d) as [E | E]; [left; split; [exact E | congruence] |].
  right. inv. bools. split; [exact E |]. split; [assumption |].
  unfold set_token. rewrite (upd_other w s _ d) by congruence.
  destruct Hs as [-> _], Hd as [-> _]. reflexivity.
Qed.

Lemma mint_to_ok w signed m d a x w' : spl_mint_to w signed m d a x = Ok w' ->
  exists mt td, mint_at w m mt /\ token_at w d td /\ t_mint td = m /\ m <> d /\
    m_authority mt = Some a /\ In a signed /\
    t_amount td + x <= u64_max /\ m_supply mt + x <= u64_max /\
    w' = upd (upd w d (mk_account TOKEN_PROGRAM_ID (DToken (with_amount td (t_amount td + x))))) m
             (mk_account TOKEN_PROGRAM_ID (DMint (with_supply mt (m_supply mt + x)))).
Proof.
  unfold spl_mint_to. intros H. inv.
  match goal with H : get_mint w _ = Ok ?x |- _ => rename x into mt; rename H into Hmint end.
  match goal with H : get_token w d = Ok ?x |- _ => rename x into td; rename H into Hd end.
  apply get_token_ok in Hd. apply get_mint_ok in Hmint. bools. subst.
  assert (Ne : t_mint td <> d) by (intros E; rewrite E in Hmint; exact (token_not_mint _ _ _ _ Hd Hmint)).
  exists mt, td. do 4 (split; [auto |]).
  destruct (m_authority mt) as [au |] eqn:Eau; [| discriminate].
  match goal with H : validate_owner _ _ _ _ = Ok ?u |- _ => destruct u; apply validate_owner_ok in H; destruct H as [-> Hin] end.
  do 4 (split; [auto |]).
  unfold set_token, set_mint. rewrite (upd_other w d _ (t_mint td)) by exact Ne.
  destruct Hd as [-> _], Hmint as [-> _]. reflexivity.
Qed.

Lemma burn_ok w signed s m a x w' : spl_burn w signed s m a x = Ok w' ->
  exists mt ts ts', mint_at w m mt /\ token_at w s ts /\ t_mint ts = m /\ m <> s /\
    x <= t_amount ts /\ x <= m_supply mt /\ In a signed /\ debited a x ts ts' /\
    w' = upd (upd w s (mk_account TOKEN_PROGRAM_ID (DToken (with_amount ts' (t_amount ts - x))))) m
             (mk_account TOKEN_PROGRAM_ID (DMint (with_supply mt (m_supply mt - x)))).
Proof.
  unfold spl_burn. intros H. inv.
  match goal with H : get_mint w _ = Ok ?x |- _ => rename x into mt; rename H into Hmint end.
  match goal with H : get_token w s = Ok ?x |- _ => rename x into ts; rename H into Hs end.
  match goal with H : authorize_debit _ _ _ _ _ = Ok ?x |- _ => rename x into ts'; rename H into Ha end.
  apply get_token_ok in Hs. apply get_mint_ok in Hmint. apply authorize_debit_ok in Ha. destruct Ha as [Ha Hb].
  bools. subst.
  assert (Ne : t_mint ts <> s) by (intros E; rewrite E in Hmint; exact (token_not_mint _ _ _ _ Hs Hmint)).
  exists mt, ts, ts'. do 8 (split; [auto |]).
  unfold set_token, set_mint. rewrite (upd_other w s _ (t_mint ts)) by exact Ne.
  destruct Hs as [-> _], Hmint as [-> _]. reflexivity.
Qed.

(** ** Sequences of calls *)
Inductive op : Type :=
| OTransfer (source dest authority amount : Z)
| OMint (mint dest authority amount : Z)
| OBurn (source mint authority amount : Z).

Definition apply_op (signed : list Z) (w : world) (o : op) : result world :=
  match o with
  | OTransfer s d a x => spl_transfer w signed s d a x
  | OMint m d a x => spl_mint_to w signed m d a x
  | OBurn s m a x => spl_burn w signed s m a x
  end.
Fixpoint run_ops (signed : list Z) (w : world) (l : list op) : result world :=
  match l with
  | [] => Ok w
  | o :: l' => do! w1 := apply_op signed w o in run_ops signed w1 l'
  end.

Definition op_amount (o : op) : Z :=
  match o with OTransfer _ _ _ x | OMint _ _ _ x | OBurn _ _ _ x => x end.
Definition op_authority (o : op) : Z :=
  match o with OTransfer _ _ a _ | OMint _ _ a _ | OBurn _ _ a _ => a end.
Definition op_source (o : op) : option Z :=
  match o with OTransfer s _ _ _ | OBurn s _ _ _ => Some s | OMint _ _ _ _ => None end.
Definition op_keys (o : op) : list Z :=
  match o with OTransfer s d _ _ => [s; d] | OMint m d _ _ => [m; d] | OBurn s m _ _ => [s; m] end.
Definition op_balance (o : op) (k : Z) : Z :=
  match o with
  | OTransfer s d _ x => only_at d k x - only_at s k x
  | OMint _ d _ x => only_at d k x
  | OBurn s _ _ x => - only_at s k x
  end.
Definition op_supply (o : op) (k : Z) : Z :=
  match o with
  | OTransfer _ _ _ _ => 0
  | OMint m _ _ x => only_at m k x
  | OBurn _ m _ x => - only_at m k x
  end.
Fixpoint sum_ops (f : op -> Z -> Z) (l : list op) (k : Z) : Z :=
  match l with [] => 0 | o :: l' => f o k + sum_ops f l' k end.

Lemma only_at_same k x : only_at k k x = x.
Proof. unfold only_at. now rewrite Z.eqb_refl. Qed.
Lemma only_at_other k k' x : k' <> k -> only_at k k' x = 0.
Proof. intros H. unfold only_at. destruct (Z.eqb_spec k' k); [contradiction | reflexivity]. Qed.

Lemma token_upd w k t : token_at (upd w k (mk_account TOKEN_PROGRAM_ID (DToken t))) k t.
Proof. split; rewrite upd_same; reflexivity. Qed.
Lemma mint_upd w k t : mint_at (upd w k (mk_account TOKEN_PROGRAM_ID (DMint t))) k t.
Proof. split; rewrite upd_same; reflexivity. Qed.
Lemma token_eq w w' k t : w' k = w k -> token_at w k t -> token_at w' k t.
Proof. unfold token_at. now intros ->. Qed.
Lemma mint_eq w w' k t : w' k = w k -> mint_at w k t -> mint_at w' k t.
Proof. unfold mint_at. now intros ->. Qed.

(** One call: everything about every account. *)
Lemma op_effect signed w o w' : apply_op signed w o = Ok w' ->
  In (op_authority o) signed /\
  (forall k, balance w' k = balance w k + op_balance o k) /\
  (forall k, supply w' k = supply w k + op_supply o k) /\
  (forall k, ~ In k (op_keys o) -> w' k = w k) /\
  (forall k, a_owner (w' k) = a_owner (w k)) /\
  (forall k, a_owner (w k) <> TOKEN_PROGRAM_ID -> w' k = w k) /\
  (forall k, op_source o <> Some k -> sans_amount (w' k) = sans_amount (w k)) /\
  (forall k, sans_allowance (w' k) = sans_allowance (w k)).
Proof.
  intros H. destruct o as [s d a x | m d a x | s m a x]; cbn [apply_op] in H.
  - apply transfer_ok in H. destruct H as (ts & td & ts' & Hs & Hd & _ & _ & Ha & Hdeb & Hw).
    apply debited_same in Hdeb. destruct Hdeb as (D1 & D2 & D3 & D4 & D5 & D6).
    cbn [op_authority op_keys op_source op_balance op_supply].
    destruct Hw as [(E & ->) | (E & _ & Hw)].
    { subst d. repeat split; auto; intros; lia. }
    assert (W : forall k, k = d /\ w' k = mk_account TOKEN_PROGRAM_ID (DToken (with_amount td (t_amount td + x)))
                       \/ k = s /\ k <> d /\ w' k = mk_account TOKEN_PROGRAM_ID (DToken (with_amount ts' (t_amount ts - x)))
                       \/ k <> s /\ k <> d /\ w' k = w k).
    { intros k. subst w'. destruct (Z.eq_dec k d) as [-> | Nd]; [left; split; [reflexivity | apply upd_same] |].
      rewrite upd_other by exact Nd. destruct (Z.eq_dec k s) as [-> | Ns].
      - right; left. repeat split; auto. apply upd_same.
      - right; right. repeat split; auto. now apply upd_other. }
    clear Hw. destruct Hs as [Hs1 Hs2], Hd as [Hd1 Hd2].
    split; [exact Ha |].
    repeat split; intros k; destruct (W k) as [(-> & Ek) | [(-> & Ne & Ek) | (N1 & N2 & Ek)]];
      unfold balance, supply, sans_amount, sans_allowance; rewrite Ek;
      rewrite ?Hs1, ?Hs2, ?Hd1, ?Hd2, ?Z.eqb_refl, ?only_at_same;
      cbn [a_owner a_data with_amount t_amount t_mint t_owner t_delegate t_delegated_amount t_frozen t_native t_close_authority];
      rewrite ?D1, ?D2, ?D3, ?D4, ?D5, ?D6;
      try (rewrite !only_at_other by auto); try reflexivity; try lia;
      try (rewrite only_at_other by auto; lia); try (intros Q; exfalso; apply Q; cbn; auto; fail);
      try (intros Q; congruence).
  - apply mint_to_ok in H. destruct H as (mt & td & Hm & Hd & _ & E & _ & Ha & _ & _ & Hw).
    cbn [op_authority op_keys op_source op_balance op_supply].
    assert (W : forall k, k = m /\ w' k = mk_account TOKEN_PROGRAM_ID (DMint (with_supply mt (m_supply mt + x)))
                       \/ k = d /\ k <> m /\ w' k = mk_account TOKEN_PROGRAM_ID (DToken (with_amount td (t_amount td + x)))
                       \/ k <> d /\ k <> m /\ w' k = w k).
    { intros k. subst w'. destruct (Z.eq_dec k m) as [-> | Nd]; [left; split; [reflexivity | apply upd_same] |].
      rewrite upd_other by exact Nd. destruct (Z.eq_dec k d) as [-> | Ns].
      - right; left. repeat split; auto. apply upd_same.
      - right; right. repeat split; auto. now apply upd_other. }
    clear Hw. destruct Hm as [Hs1 Hs2], Hd as [Hd1 Hd2].
    split; [exact Ha |].
    repeat split; intros k; destruct (W k) as [(-> & Ek) | [(-> & Ne & Ek) | (N1 & N2 & Ek)]];
      unfold balance, supply, sans_amount, sans_allowance; rewrite Ek;
      rewrite ?Hs1, ?Hs2, ?Hd1, ?Hd2, ?Z.eqb_refl, ?only_at_same;
      cbn [a_owner a_data with_amount with_supply m_supply m_authority m_decimals m_freeze_authority t_amount t_mint t_owner t_delegate t_delegated_amount t_frozen t_native t_close_authority];
      try (rewrite !only_at_other by auto); try reflexivity; try lia;
      try (rewrite only_at_other by auto; lia); try (intros Q; exfalso; apply Q; cbn; auto; fail);
      try (intros Q; congruence).
  - apply burn_ok in H. destruct H as (mt & ts & ts' & Hm & Hd & _ & E & _ & _ & Ha & Hdeb & Hw).
    apply debited_same in Hdeb. destruct Hdeb as (D1 & D2 & D3 & D4 & D5 & D6).
    cbn [op_authority op_keys op_source op_balance op_supply].
    assert (W : forall k, k = m /\ w' k = mk_account TOKEN_PROGRAM_ID (DMint (with_supply mt (m_supply mt - x)))
                       \/ k = s /\ k <> m /\ w' k = mk_account TOKEN_PROGRAM_ID (DToken (with_amount ts' (t_amount ts - x)))
                       \/ k <> s /\ k <> m /\ w' k = w k).
    { intros k. subst w'. destruct (Z.eq_dec k m) as [-> | Nd]; [left; split; [reflexivity | apply upd_same] |].
      rewrite upd_other by exact Nd. destruct (Z.eq_dec k s) as [-> | Ns].
      - right; left. repeat split; auto. apply upd_same.
      - right; right. repeat split; auto. now apply upd_other. }
    clear Hw. destruct Hm as [Hs1 Hs2], Hd as [Hd1 Hd2].
    split; [exact Ha |].
    repeat split; intros k; destruct (W k) as [(-> & Ek) | [(-> & Ne & Ek) | (N1 & N2 & Ek)]];
      unfold balance, supply, sans_amount, sans_allowance; rewrite Ek;
      rewrite ?Hs1, ?Hs2, ?Hd1, ?Hd2, ?Z.eqb_refl, ?only_at_same;
      cbn [a_owner a_data with_amount with_supply m_supply m_authority m_decimals m_freeze_authority t_amount t_mint t_owner t_delegate t_delegated_amount t_frozen t_native t_close_authority];
      rewrite ?D1, ?D2, ?D3, ?D4, ?D5, ?D6;
      try (rewrite !only_at_other by auto); try reflexivity; try lia;
      try (rewrite only_at_other by auto; lia); try (intros Q; exfalso; apply Q; cbn; auto; fail);
      try (intros Q; congruence).
Qed.

(** ** Consequences of equal frames *)
Lemma sans_token w w' k t : sans_allowance (w' k) = sans_allowance (w k) -> token_at w k t ->
  exists t', token_at w' k t' /\ t_mint t' = t_mint t /\ t_owner t' = t_owner t /\
    t_frozen t' = t_frozen t /\ t_native t' = t_native t /\ t_close_authority t' = t_close_authority t.
Proof.
  intros H (H1 & H2). unfold sans_allowance in H. rewrite H1, H2 in H. injection H as Ho Hd.
  destruct (a_data (w' k)) as [t' | |] eqn:E; try discriminate. injection Hd as A B C D F.
  exists t'. repeat split; auto.
Qed.
Lemma sans_token_full w w' k t : sans_amount (w' k) = sans_amount (w k) -> token_at w k t ->
  token_at w' k (with_amount t (balance w' k)).
Proof.
  intros H (H1 & H2). unfold sans_amount in H. rewrite H1, H2 in H. injection H as Ho Hd.
  destruct (a_data (w' k)) as [t' | |] eqn:E; try discriminate. injection Hd as A B C D F G I.
  unfold token_at, balance. rewrite Ho, E, Z.eqb_refl. split; [reflexivity |].
  f_equal. destruct t', t; cbn in *. unfold with_amount; cbn; congruence.
Qed.
Lemma sans_mint w w' k m : sans_allowance (w' k) = sans_allowance (w k) -> mint_at w k m ->
  mint_at w' k (with_supply m (supply w' k)).
Proof.
  intros H (H1 & H2). unfold sans_allowance in H. rewrite H1, H2 in H. injection H as Ho Hd.
  destruct (a_data (w' k)) as [ | m' |] eqn:E; try discriminate. injection Hd as A B C.
  unfold mint_at, supply. rewrite Ho, E, Z.eqb_refl. split; [reflexivity |].
  f_equal. destruct m', m; cbn in *. unfold with_supply; cbn; congruence.
Qed.

(** ** Who takes what *)
Definition fair (U : list Z) (t t' : token_account) : Prop :=
  In (t_owner t) U \/
  exists spent, 0 <= spent /\ t_amount t - t_amount t' <= spent /\
    t_delegated_amount t' = t_delegated_amount t - spent /\
    (0 < spent -> exists d, t_delegate t = Some d /\ In d U /\ spent <= t_delegated_amount t) /\
    (t_delegate t' = t_delegate t \/ t_delegate t' = None).

Lemma fair_same U t t' : t_delegate t' = t_delegate t ->
  t_delegated_amount t' = t_delegated_amount t -> t_amount t <= t_amount t' -> fair U t t'.
Proof. intros H1 H2 H3. right. exists 0. repeat split; auto; lia. Qed.

Lemma fair_trans U t1 t2 t3 : t_owner t2 = t_owner t1 -> fair U t1 t2 -> fair U t2 t3 -> fair U t1 t3.
Proof.
  intros Ho [H | (s1 & A1 & B1 & C1 & D1 & E1)] [H' | (s2 & A2 & B2 & C2 & D2 & E2)];
    try (left; congruence).
  right. exists (s1 + s2). split; [lia |]. split; [lia |]. split; [lia |]. split.
  - intros Hp. destruct (Z.eq_dec s2 0) as [Z2 | N2].
    + destruct D1 as (d & X & Y & Z1); [lia |]. exists d. repeat split; auto. lia.
    + destruct D2 as (d & X & Y & Z2); [lia |]. exists d. split; [| split; [exact Y | lia]].
      destruct E1 as [E1 | E1]; congruence.
  - destruct E1 as [E1 | E1], E2 as [E2 | E2]; auto; try (left; congruence); right; congruence.
Qed.

Lemma debited_fair U a x t t' y : debited a x t t' -> In a U -> 0 <= x -> t_amount t - x <= y ->
  fair U t (with_amount t' y).
Proof.
  intros [Ha | Hd Hx] HU Hx0 Hy.
  - left. congruence.
  - right. exists x. cbn. split; [exact Hx0 |]. split; [lia |]. split; [reflexivity |]. split.
    + intros _. exists a. auto.
    + destruct (_ =? 0); auto.
Qed.

Lemma op_fair signed w o w' U k t : apply_op signed w o = Ok w' -> 0 <= op_amount o ->
  (op_source o = Some k -> In (op_authority o) U) -> token_at w k t ->
  exists t', token_at w' k t' /\ t_owner t' = t_owner t /\ fair U t t'.
Proof.
  intros H Hx HU Ht. destruct o as [s d a x | m d a x | s m a x]; cbn [apply_op op_amount op_source op_authority] in *.
  - apply transfer_ok in H. destruct H as (ts & td & ts' & Hs & Hd & _ & _ & Ha & Hdeb & Hw).
    destruct Hw as [(E & ->) | (E & _ & ->)].
    { exists t. split; [exact Ht |]. split; [reflexivity |]. apply fair_same; auto; lia. }
    destruct (Z.eq_dec k d) as [-> | Nd].
    + rewrite (token_fun _ _ _ _ Ht Hd) in *. eexists. split; [apply token_upd |]. split; [reflexivity |].
      apply fair_same; cbn; auto; lia.
    + destruct (Z.eq_dec k s) as [-> | Ns].
      * rewrite (token_fun _ _ _ _ Ht Hs) in *. eexists.
        split; [eapply token_eq; [apply upd_other; exact Nd | apply token_upd] |].
        split; [apply debited_same in Hdeb; cbn; intuition |].
        eapply debited_fair; eauto. lia.
      * exists t. split; [eapply token_eq; [| exact Ht]; rewrite !upd_other by auto; reflexivity |].
        split; [reflexivity |]. apply fair_same; auto; lia.
  - apply mint_to_ok in H. destruct H as (mt & td & Hm & Hd & _ & E & _ & Ha & _ & _ & ->).
    assert (Nm : k <> m) by (intros ->; exact (token_not_mint _ _ _ _ Ht Hm)).
    destruct (Z.eq_dec k d) as [-> | Nd].
    + rewrite (token_fun _ _ _ _ Ht Hd) in *. eexists.
      split; [eapply token_eq; [apply upd_other; exact Nm | apply token_upd] |].
      split; [reflexivity |]. apply fair_same; cbn; auto; lia.
    + exists t. split; [eapply token_eq; [| exact Ht]; rewrite !upd_other by auto; reflexivity |].
      split; [reflexivity |]. apply fair_same; auto; lia.
  - apply burn_ok in H. destruct H as (mt & ts & ts' & Hm & Hs & _ & E & _ & _ & Ha & Hdeb & ->).
    assert (Nm : k <> m) by (intros ->; exact (token_not_mint _ _ _ _ Ht Hm)).
    destruct (Z.eq_dec k s) as [-> | Ns].
    + rewrite (token_fun _ _ _ _ Ht Hs) in *. eexists.
      split; [eapply token_eq; [apply upd_other; exact Nm | apply token_upd] |].
      split; [apply debited_same in Hdeb; cbn; intuition |].
      eapply debited_fair; eauto. lia.
    + exists t. split; [eapply token_eq; [| exact Ht]; rewrite !upd_other by auto; reflexivity |].
      split; [reflexivity |]. apply fair_same; auto; lia.
Qed.

(** Success of a debit needs the owner's or the delegate's signature. *)
Lemma op_source_auth signed w o w' k : apply_op signed w o = Ok w' -> op_source o = Some k ->
  exists t, token_at w k t /\ op_amount o <= t_amount t /\
    (op_authority o = t_owner t \/ t_delegate t = Some (op_authority o)).
Proof.
  intros H Hs. destruct o as [s d a x | m d a x | s m a x]; cbn [apply_op op_source op_authority op_amount] in *;
    try discriminate; injection Hs as ->.
  - apply transfer_ok in H. destruct H as (ts & td & ts' & Hs & _ & _ & Hle & _ & Hdeb & _).
    exists ts. split; [exact Hs |]. split; [exact Hle |]. destruct Hdeb; auto.
  - apply burn_ok in H. destruct H as (mt & ts & ts' & _ & Hs & _ & _ & Hle & _ & _ & Hdeb & _).
    exists ts. split; [exact Hs |]. split; [exact Hle |]. destruct Hdeb; auto.
Qed.

Lemma op_mint_auth signed w m d a x w' : apply_op signed w (OMint m d a x) = Ok w' ->
  exists mt, mint_at w m mt /\ m_authority mt = Some a.
Proof.
  intros H. apply mint_to_ok in H. destruct H as (mt & td & Hm & _ & _ & _ & Hau & _).
  exists mt. auto.
Qed.

Lemma op_wf signed w o w' : apply_op signed w o = Ok w' -> 0 <= op_amount o -> world_wf w -> world_wf w'.
Proof.
  intros H Hx Hwf. assert (Hx' := Hx).
  destruct o as [s d a x | m d a x | s m a x]; cbn [apply_op op_amount] in *.
  - apply transfer_ok in H. destruct H as (ts & td & ts' & Hs & Hd & _ & Hle & Ha & Hdeb & Hw).
    destruct Hw as [(E & ->) | (E & Hmax & ->)]; [exact Hwf |].
    pose proof (Hwf s) as Ws. pose proof (Hwf d) as Wd. destruct Hs as [_ Hs], Hd as [_ Hd].
    unfold account_wf in Ws, Wd. rewrite Hs in Ws. rewrite Hd in Wd. unfold is_u64 in *.
    intros k. unfold upd. destruct (k =? d); [cbn; unfold is_u64; intuition lia |].
    destruct (k =? s); [| apply Hwf].
    destruct Hdeb; cbn; unfold is_u64; intuition lia.
  - apply mint_to_ok in H. destruct H as (mt & td & Hm & Hd & _ & E & _ & Ha & B1 & B2 & ->).
    pose proof (Hwf m) as Ws. pose proof (Hwf d) as Wd. destruct Hm as [_ Hs], Hd as [_ Hd].
    unfold account_wf in Ws, Wd. rewrite Hs in Ws. rewrite Hd in Wd. unfold is_u64 in *.
    intros k. unfold upd. destruct (k =? m); [cbn; unfold is_u64; intuition lia |].
    destruct (k =? d); [| apply Hwf]. cbn; unfold is_u64; intuition lia.
  - apply burn_ok in H. destruct H as (mt & ts & ts' & Hm & Hd & _ & E & B1 & B2 & Ha & Hdeb & ->).
    pose proof (Hwf m) as Ws. pose proof (Hwf s) as Wd. destruct Hm as [_ Hs], Hd as [_ Hd].
    unfold account_wf in Ws, Wd. rewrite Hs in Ws. rewrite Hd in Wd. unfold is_u64 in *.
    intros k. unfold upd. destruct (k =? m); [cbn; unfold is_u64; intuition lia |].
    destruct (k =? s); [| apply Hwf]. destruct Hdeb; cbn; unfold is_u64; intuition lia.
Qed.

(** ** Sequences *)
Definition ops_keys (l : list op) : list Z := flat_map op_keys l.

Lemma run_effect signed l : forall w w', run_ops signed w l = Ok w' ->
  Forall (fun o => In (op_authority o) signed) l /\
  (forall k, balance w' k = balance w k + sum_ops op_balance l k) /\
  (forall k, supply w' k = supply w k + sum_ops op_supply l k) /\
  (forall k, ~ In k (ops_keys l) -> w' k = w k) /\
  (forall k, a_owner (w' k) = a_owner (w k)) /\
  (forall k, a_owner (w k) <> TOKEN_PROGRAM_ID -> w' k = w k) /\
  (forall k, (forall o, In o l -> op_source o <> Some k) -> sans_amount (w' k) = sans_amount (w k)) /\
  (forall k, sans_allowance (w' k) = sans_allowance (w k)).
Proof.
  induction l as [| o l IH]; intros w w' H; cbn [run_ops] in H.
  - injection H as ->. cbn [sum_ops]. repeat split; auto; intros; lia.
  - apply rbind_ok in H. destruct H as (w1 & H1 & H2).
    apply op_effect in H1. destruct H1 as (A1 & A2 & A3 & A4 & A5 & A6 & A7 & A8).
    apply IH in H2. destruct H2 as (B1 & B2 & B3 & B4 & B5 & B6 & B7 & B8).
    cbn [sum_ops ops_keys flat_map].
    split; [constructor; assumption |].
    split; [intros k; rewrite B2, A2; lia |].
    split; [intros k; rewrite B3, A3; lia |].
    split. { intros k Hk. rewrite B4, A4; [reflexivity | |]; intros Q; apply Hk; apply in_or_app; auto. }
    split; [intros k; rewrite B5, A5; reflexivity |].
    split. { intros k Hk. rewrite B6, A6; auto. now rewrite A5. }
    split. { intros k Hk. rewrite B7, A7; [reflexivity | apply Hk; now left |]. intros o' Ho'. apply Hk. now right. }
    intros k. rewrite B8, A8. reflexivity.
Qed.

Lemma run_fair signed U k l : forall w w' t, run_ops signed w l = Ok w' ->
  Forall (fun o => 0 <= op_amount o) l ->
  Forall (fun o => op_source o = Some k -> In (op_authority o) U) l -> token_at w k t ->
  exists t', token_at w' k t' /\ t_owner t' = t_owner t /\ fair U t t'.
Proof.
  induction l as [| o l IH]; intros w w' t H Ha Hu Ht; cbn [run_ops] in H.
  - injection H as ->. exists t. split; [exact Ht |]. split; [reflexivity |]. apply fair_same; auto; lia.
  - apply rbind_ok in H. destruct H as (w1 & H1 & H2). apply Forall_cons_iff in Ha, Hu.
    destruct Ha as [Ha0 Ha], Hu as [Hu0 Hu].
    destruct (op_fair _ _ _ _ U _ _ H1 Ha0 Hu0 Ht) as (t1 & T1 & O1 & F1).
    destruct (IH _ _ _ H2 Ha Hu T1) as (t2 & T2 & O2 & F2).
    exists t2. split; [exact T2 |]. split; [congruence |]. eapply fair_trans; eauto.
Qed.

Lemma run_wf signed l : forall w w', run_ops signed w l = Ok w' ->
  Forall (fun o => 0 <= op_amount o) l -> world_wf w -> world_wf w'.
Proof.
  induction l as [| o l IH]; intros w w' H Ha Hw; cbn [run_ops] in H.
  - injection H as <-. exact Hw.
  - apply rbind_ok in H. destruct H as (w1 & H1 & H2). inversion Ha; subst.
    eapply IH; eauto. eapply op_wf; eauto.
Qed.

Lemma run_app signed l1 l2 w : run_ops signed w (l1 ++ l2) =
  rbind (run_ops signed w l1) (fun w1 => run_ops signed w1 l2).
Proof.
  revert w. induction l1 as [| o l1 IH]; intros w; [reflexivity |]. cbn [app run_ops].
  destruct (apply_op signed w o); [apply IH | reflexivity].
Qed.

(** An account nobody with a matching authority debits keeps everything but may grow. *)
Lemma run_protects signed l w w' k t : run_ops signed w l = Ok w' ->
  Forall (fun o => 0 <= op_amount o) l -> token_at w k t -> t_delegate t = None ->
  Forall (fun o => op_source o = Some k -> op_authority o <> t_owner t) l ->
  token_at w' k (with_amount t (balance w' k)) /\ balance w k <= balance w' k.
Proof.
  intros H Ha Ht Hd Hn.
  assert (S : forall o, In o l -> op_source o <> Some k).
  { revert w t H Ht Hd Hn. induction l as [| o l IH]; intros w t H Ht Hd Hn; [intros ? [] |].
    cbn [run_ops] in H. apply rbind_ok in H. destruct H as (w1 & H1 & H2).
    assert (So : op_source o <> Some k).
    { intros E. destruct (op_source_auth _ _ _ _ _ H1 E) as (t0 & T0 & _ & [A | A]);
        rewrite <- (token_fun _ _ _ _ Ht T0) in A.
      - apply Forall_cons_iff in Hn. destruct Hn as [Hn _]. exact (Hn E A).
      - congruence. }
    apply op_effect in H1. destruct H1 as (_ & _ & _ & _ & _ & _ & A7 & _).
    specialize (A7 k So). apply (sans_token_full _ _ _ _ A7) in Ht.
    apply Forall_cons_iff in Ha, Hn. destruct Ha as [Ha0 Ha], Hn as [Hn0 Hn].
    intros o' [<- | Ho']; [exact So |].
    eapply (IH Ha w1 _ H2 Ht); cbn; auto. }
  apply run_effect in H. destruct H as (_ & B2 & _ & _ & _ & _ & B7 & _).
  specialize (B7 k S). split; [now apply (sans_token_full _ _ _ _ B7) |].
  rewrite B2. assert (0 <= sum_ops op_balance l k); [| lia].
  clear - S Ha. induction l as [| o l IH]; cbn [sum_ops]; [lia |].
  inversion Ha; subst. assert (0 <= sum_ops op_balance l k) by (apply IH; [assumption | intros; apply S; now right]).
  specialize (S o (or_introl eq_refl)).
  destruct o as [s d a x | m d a x | s m a x]; cbn [op_balance op_source op_amount] in *;
    try (rewrite (only_at_other s k) by congruence); unfold only_at; try destruct (_ =? _); lia.
Qed.

Lemma run_mint signed l : forall w w' k m au, run_ops signed w l = Ok w' ->
  Forall (fun o => 0 <= op_amount o) l -> mint_at w k m -> m_authority m = Some au ->
  Forall (fun o => match o with OMint _ _ a _ => a <> au | _ => True end) l ->
  mint_at w' k (with_supply m (supply w' k)) /\ supply w' k <= supply w k.
Proof.
  induction l as [| o l IH]; intros w w' k m au H Ha Hm Hau Hn; cbn [run_ops] in H.
  - injection H as <-. rewrite (mint_supply _ _ _ Hm). split; [destruct m; exact Hm | lia].
  - apply rbind_ok in H. destruct H as (w1 & H1 & H2). apply Forall_cons_iff in Ha, Hn.
    destruct Ha as [Ha0 Ha], Hn as [Hn0 Hn].
    pose proof H1 as H1'. apply op_effect in H1. destruct H1 as (_ & _ & A3 & _ & _ & _ & _ & A8).
    pose proof (sans_mint _ _ _ _ (A8 k) Hm) as Hm1.
    destruct (IH _ _ _ _ au H2 Ha Hm1 Hau Hn) as [M2 L2].
    split; [exact M2 |]. rewrite A3 in L2.
    destruct o as [s d a x | m' d a x | s m' a x]; cbn [op_supply op_amount] in *; try lia.
    + destruct (Z.eq_dec k m') as [-> | N].
      * destruct (op_mint_auth _ _ _ _ _ _ _ H1') as (mt & Hmt & E).
        rewrite (mint_fun _ _ _ _ Hmt Hm) in E. congruence.
      * rewrite only_at_other in L2 by exact N. lia.
    + unfold only_at in L2. destruct (_ =? _); lia.
Qed.
