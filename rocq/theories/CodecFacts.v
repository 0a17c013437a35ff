(** Facts about the byte encodings. *)
From Verif Require Import Ints Tactics Fees LinearCurve SwapCurve Codec Spec.

Lemma to_le_length n x : length (to_le n x) = n.
Proof. revert x. induction n as [| n IH]; intros x; cbn [to_le length]; [reflexivity | now rewrite IH]. Qed.

Lemma from_le_to_le n x : 0 <= x < 256 ^ Z.of_nat n -> from_le (to_le n x) = x.
Proof.
  revert x. induction n as [| n IH]; intros x Hx; cbn [to_le from_le].
  - change (Z.of_nat 0) with 0 in Hx. lia.
  - rewrite Nat2Z.inj_succ, Z.pow_succ_r in Hx by lia.
    rewrite IH.
    + pose proof (Z.div_mod x 256 ltac:(lia)). lia.
    + split; [apply Z.div_pos; lia | apply Z.div_lt_upper_bound; lia].
Qed.

Lemma to_le_u8 n x : Forall is_u8 (to_le n x).
Proof.
  revert x. induction n as [| n IH]; intros x; cbn [to_le]; constructor.
  - pose proof (Z.mod_pos_bound x 256 ltac:(lia)). unfold is_u8. lia.
  - apply IH.
Qed.

Lemma from_le_bounds l : Forall is_u8 l -> 0 <= from_le l < 256 ^ Z.of_nat (length l).
Proof.
  induction 1 as [| b l Hb _ IH]; cbn [from_le length].
  - change (Z.of_nat 0) with 0. lia.
  - rewrite Nat2Z.inj_succ, Z.pow_succ_r by lia. unfold is_u8 in Hb. lia.
Qed.

Lemma to_le_from_le n l : Forall is_u8 l -> length l = n -> to_le n (from_le l) = l.
Proof.
  intros H. revert n. induction H as [| b l Hb H IH]; intros n <-; cbn [from_le length to_le]; [reflexivity |].
  unfold is_u8 in Hb. replace (b + 256 * from_le l) with (b + from_le l * 256) by ring. f_equal.
  - rewrite Z.mod_add by lia. apply Z.mod_small. lia.
  - rewrite Z.div_add by lia. rewrite (Z.div_small b) by lia. rewrite Z.add_0_l. apply IH. reflexivity.
Qed.

Lemma u64_le x : is_u64 x -> from_le (to_le 8 x) = x.
Proof. intros H. apply from_le_to_le. unfold is_u64, u64_max in H. change (256 ^ Z.of_nat 8) with (2 ^ 64). lia. Qed.
Lemma key_le x : is_pubkey x -> from_le (to_le 32 x) = x.
Proof. intros H. apply from_le_to_le. unfold is_pubkey in H. change (256 ^ Z.of_nat 32) with (2 ^ 256). lia. Qed.

Lemma slice_skip o n a b : (length a <= o)%nat -> slice o n (a ++ b) = slice (o - length a) n b.
Proof.
  intros H. unfold slice. rewrite skipn_app. rewrite skipn_all2 by exact H. reflexivity.
Qed.
Lemma slice_take n a b : length a = n -> slice 0 n (a ++ b) = a.
Proof. intros <-. unfold slice. cbn [skipn]. rewrite firstn_app, Nat.sub_diag, firstn_all, firstn_O, app_nil_r. reflexivity. Qed.
Lemma slice_all n a : length a = n -> slice 0 n a = a.
Proof. intros H. rewrite <- (app_nil_r a) at 1. apply slice_take. exact H. Qed.
Lemma slice_length o n l : (o + n <= length l)%nat -> length (slice o n l) = n.
Proof. intros H. unfold slice. rewrite firstn_length, skipn_length. lia. Qed.
Lemma In_firstn A n (l : list A) x : In x (firstn n l) -> In x l.
Proof. intros H. rewrite <- (firstn_skipn n l). apply in_or_app. left. exact H. Qed.
Lemma In_skipn A n (l : list A) x : In x (skipn n l) -> In x l.
Proof. intros H. rewrite <- (firstn_skipn n l). apply in_or_app. right. exact H. Qed.
Lemma slice_u8 o n l : Forall is_u8 l -> Forall is_u8 (slice o n l).
Proof.
  intros H. apply Forall_forall. intros x Hx. rewrite Forall_forall in H. apply H.
  unfold slice in Hx. apply In_firstn in Hx. apply In_skipn in Hx. exact Hx.
Qed.

Lemma skipn_twice A o n (l : list A) : skipn n (skipn o l) = skipn (o + n) l.
Proof.
  revert l. induction o as [| o IH]; intros l; [reflexivity |].
  destruct l as [| x l]; [cbn [skipn plus]; apply skipn_nil |]. cbn [skipn plus]. apply IH.
Qed.

Lemma firstn_plus A n m (l : list A) : firstn (n + m) l = firstn n l ++ firstn m (skipn n l).
Proof.
  revert l. induction n as [| n IH]; intros l; [reflexivity |].
  destruct l as [| x l]; [cbn [firstn skipn plus app]; now rewrite firstn_nil |].
  cbn [firstn skipn plus app]. f_equal. apply IH.
Qed.

(** Consecutive slices concatenate. *)
Lemma slice_split o n m l : slice o (n + m) l = slice o n l ++ slice (o + n) m l.
Proof. unfold slice. rewrite firstn_plus, skipn_twice. reflexivity. Qed.
Lemma slice_whole l n : length l = n -> l = slice 0 n l.
Proof. intros H. symmetry. apply slice_all. exact H. Qed.
Lemma slice_slice o n o' n' l : (o' + n' <= n)%nat -> slice o' n' (slice o n l) = slice (o + o') n' l.
Proof.
  intros H. unfold slice. rewrite skipn_firstn_comm, firstn_firstn, Nat.min_l by lia.
  rewrite skipn_twice. reflexivity.
Qed.

Ltac lens := rewrite ?app_length, ?to_le_length; cbn [length]; try lia.
Ltac slices :=
  repeat first
    [ rewrite slice_take by (rewrite ?to_le_length; reflexivity)
    | rewrite slice_all by (rewrite ?to_le_length; reflexivity)
    | rewrite slice_skip by (rewrite ?to_le_length; cbn [length]; lia); rewrite ?to_le_length;
      cbn [length Nat.sub] ].

(** ** Fees *)
Lemma pack_fees_length f : length (pack_fees f) = 64%nat.
Proof. unfold pack_fees. lens. Qed.

Lemma fees_roundtrip f : fees_wf f -> unpack_fees (pack_fees f) = f.
Proof.
  intros (H1 & H2 & H3 & H4 & H5 & H6 & H7 & H8). unfold unpack_fees, pack_fees.
  slices. rewrite !u64_le by assumption. destruct f; reflexivity.
Qed.

(** ** Curves *)
Lemma pack_calculator_length c : (length (pack_calculator c) <= 32)%nat.
Proof. destruct c; cbn [pack_calculator]; lens. Qed.

Lemma pack_curve_length c old : length old = 33%nat -> length (pack_curve c old) = 33%nat.
Proof.
  intros H. unfold pack_curve, overwrite. pose proof (pack_calculator_length c).
  rewrite app_length, skipn_length. cbn [length]. lia.
Qed.

Lemma slice_cons o n x l : slice (S o) n (x :: l) = slice o n l.
Proof. reflexivity. Qed.

Lemma curve_roundtrip c old : curve_wf c -> unpack_curve (pack_curve c old) = Ok c.
Proof.
  intros H. unfold pack_curve, overwrite. cbn [app].
  generalize (skipn (length (curve_tag c :: pack_calculator c)) old). intros rest.
  destruct c as [| p | p | p | l]; cbn [curve_wf] in H; cbn [curve_tag pack_calculator app];
    unfold unpack_curve; cbn [nth]; try reflexivity; rewrite ?slice_cons;
    [ rewrite slice_slice by lia; cbn [plus]; rewrite slice_take by apply to_le_length;
      rewrite u64_le by assumption; reflexivity .. |].
  destruct H as (H1 & H2 & H3 & H4). rewrite !slice_slice by lia. cbn [plus].
  rewrite <- !app_assoc. slices. rewrite !u64_le by assumption. destruct l; reflexivity.
Qed.

(** ** The pool account *)
Lemma pack_v1_length s old : length old = 323%nat -> length (pack_v1_into s old) = 323%nat.
Proof.
  intros H. unfold pack_v1_into, pack_key.
  rewrite !app_length, !to_le_length, pack_fees_length, pack_curve_length.
  - reflexivity.
  - apply slice_length. lia.
Qed.

Lemma unpack_pack_v1 s old : swap_state_wf s -> length old = 323%nat ->
  unpack_v1_from (pack_v1_into s old) = Ok s.
Proof.
  intros (H1 & H2 & H3 & H4 & H5 & H6 & H7 & H8 & H9 & H10) Hlen.
  assert (Hl : length (pack_curve (st_curve s) (slice 290 33 old)) = 33%nat).
  { apply pack_curve_length, slice_length. lia. }
  assert (Hf := pack_fees_length (st_fees s)).
  unfold unpack_v1_from, pack_v1_into, pack_key.
  set (crv := pack_curve (st_curve s) (slice 290 33 old)) in *.
  set (fs := pack_fees (st_fees s)) in *.
  set (body := to_le 32 (st_token_program_id s) ++ _).
  cbn [app nth].
  replace (match (if st_is_initialized s then 1 else 0) with 0 => Ok false | 1 => Ok true | _ => Err EInvalidAccountData end)
    with (Ok (st_is_initialized s) : result bool) by (destruct (st_is_initialized s); reflexivity).
  cbn [rbind]. rewrite !slice_cons. subst body.
  set (tail := fs ++ crv). slices. subst tail.
  replace (slice 0 64 (fs ++ crv)) with fs by (symmetry; apply slice_take, Hf).
  rewrite (slice_skip 64 33 fs crv) by lia. rewrite Hf. cbn [Nat.sub]. rewrite (slice_all 33 crv Hl).
  subst crv. rewrite curve_roundtrip by assumption. cbn [rbind].
  rewrite !key_le by assumption. subst fs. rewrite fees_roundtrip by assumption. destruct s; reflexivity.
Qed.

Lemma swap_roundtrip s dst : swap_state_wf s -> length dst = 324%nat ->
  exists bytes, swap_pack s dst = Ok bytes /\ length bytes = 324%nat /\
    swap_unpack bytes = if st_is_initialized s then Ok s else Err EUninitializedAccount.
Proof.
  intros Hs Hl. destruct dst as [| v rest]; [discriminate |]. cbn [length] in Hl.
  assert (Hr : length rest = 323%nat) by lia.
  exists (1 :: pack_v1_into s rest). unfold swap_pack, swap_unpack, SWAP_V1_LEN.
  rewrite Hr, (pack_v1_length s rest Hr), Nat.eqb_refl. split; [reflexivity |].
  split; [cbn [length]; now rewrite pack_v1_length |].
  cbn [Z.eqb Pos.eqb]. rewrite unpack_pack_v1 by assumption. reflexivity.
Qed.

(** Packing refuses a destination of any other size. *)
Lemma swap_pack_length s dst bytes : swap_pack s dst = Ok bytes ->
  length dst = 324%nat /\ length bytes = 324%nat.
Proof.
  intros H. destruct dst as [| v rest]; cbn [swap_pack] in H; [discriminate |].
  destruct (Nat.eqb_spec (length rest) SWAP_V1_LEN) as [E | E]; [| discriminate].
  injection H as <-. cbn [length]. rewrite pack_v1_length by exact E. now rewrite E.
Qed.

(** ** Which byte strings are pools *)
Lemma unpack_curve_ok l : (exists c, unpack_curve l = Ok c) <-> known_tag (nth 0 l 0).
Proof.
  unfold unpack_curve, known_tag. cbv zeta. generalize (nth 0 l 0). intros t. split.
  - intros (c & H).
    destruct t as [| p | p]; [lia | | discriminate].
    destruct p as [p | p |]; [| | lia];
      destruct p as [p | p |]; try (discriminate H); try lia;
      destruct p as [p | p |]; try (discriminate H); try lia;
      destruct p as [p | p |]; try (discriminate H); try lia;
      destruct p as [p | p |]; try (discriminate H); try lia.
  - intros [-> | [-> | [-> | [-> | ->]]]]; eexists; reflexivity.
Qed.

Lemma unpack_curve_err l e : unpack_curve l = Err e -> e = EInvalidAccountData.
Proof.
  intros H. destruct (unpack_curve_ok l) as [_ K].
  unfold unpack_curve in H. cbv zeta in H. revert H. generalize (nth 0 l 0). intros t H.
  repeat match type of H with
  | match ?x with _ => _ end = _ => destruct x; try discriminate H
  end; congruence.
Qed.

Lemma nth_slice o l : nth 0 (slice o 33 l) 0 = nth o l 0.
Proof.
  unfold slice. revert l. induction o as [| o IH]; intros l.
  - destruct l; reflexivity.
  - destruct l as [| x l]; [reflexivity |]. cbn [skipn nth]. apply IH.
Qed.

Lemma unpack_accepts input :
  (exists s, swap_unpack input = Ok s) <->
  length input = 324%nat /\ nth 0 input 0 = 1 /\ nth 1 input 0 = 1 /\ known_tag (nth 291 input 0).
Proof.
  destruct input as [| v rest].
  { cbn [swap_unpack]. split; [intros (s & H); discriminate | intros (H & _); discriminate]. }
  cbn [swap_unpack]. change (nth 291 (v :: rest) 0) with (nth 290 rest 0).
  change (nth 1 (v :: rest) 0) with (nth 0 rest 0). change (nth 0 (v :: rest) 0) with v.
  cbn [length]. unfold SWAP_V1_LEN.
  destruct (Z.eqb_spec v 1) as [-> | Hv].
  2:{ split; [intros (s & H); discriminate | intros (_ & H & _); contradiction]. }
  destruct (Nat.eqb_spec (length rest) 323) as [E | E].
  2:{ split; [intros (s & H); discriminate | intros (H & _); lia]. }
  unfold unpack_v1_from. rewrite <- (nth_slice 290 rest).
  destruct (unpack_curve_ok (slice 290 33 rest)) as [K1 K2].
  split.
  - intros (s & H). split; [lia |]. split; [reflexivity |].
    apply rbind_ok in H. destruct H as (s1 & H1 & H2).
    apply rbind_ok in H1. destruct H1 as (i & Hi & H1).
    apply rbind_ok in H1. destruct H1 as (c & Hc & H1). injection H1 as <-. cbn [st_is_initialized] in H2.
    destruct i; [| discriminate]. split; [| apply K1; eexists; exact Hc].
    destruct (nth 0 rest 0) as [| p | p]; try discriminate. destruct p; try discriminate. reflexivity.
  - intros (_ & _ & H & T). destruct (K2 T) as (c & Hc). rewrite H, Hc. cbn [rbind st_is_initialized].
    eexists. reflexivity.
Qed.

Lemma unpack_clean input e : swap_unpack input = Err e ->
  e = EInvalidAccountData \/ e = EUninitializedAccount.
Proof.
  intros H. destruct input as [| v rest]; cbn [swap_unpack] in H; [left; congruence |].
  destruct (v =? 1); [| right; congruence].
  destruct (Nat.eqb _ _); [| left; congruence].
  unfold unpack_v1_from in H.
  destruct (match nth 0 rest 0 with 0 => Ok false | 1 => Ok true | _ => Err EInvalidAccountData end) as [i | e1] eqn:Ei;
    cbn [rbind] in H.
  - destruct (unpack_curve _) as [c | e2] eqn:Ec; cbn [rbind st_is_initialized] in H.
    + destruct i; [discriminate | right; congruence].
    + left. apply unpack_curve_err in Ec. congruence.
  - left. destruct (nth 0 rest 0) as [| p | p]; try discriminate; [destruct p|]; congruence.
Qed.

Lemma zeroed_not_pool n : swap_unpack (repeat 0 n) = Err EInvalidAccountData \/
  swap_unpack (repeat 0 n) = Err EUninitializedAccount.
Proof. destruct n; cbn [repeat swap_unpack]; auto. Qed.

Lemma repeat_is_init n : swap_is_initialized (repeat 0 n) = false.
Proof. unfold swap_is_initialized. destruct (zeroed_not_pool n) as [-> | ->]; reflexivity. Qed.

Ltac join o n m l :=
  let p := eval compute in (o + n)%nat in
  let k := eval compute in (n + m)%nat in
  replace (slice o n l ++ slice p m l) with (slice o k l) by exact (slice_split o n m l).

(** ** Writing back what was read changes nothing *)
Lemma fees_back l : Forall is_u8 l -> length l = 64%nat -> pack_fees (unpack_fees l) = l.
Proof.
  intros Hu Hl. unfold pack_fees, unpack_fees.
  cbn [trade_fee_num trade_fee_den owner_trade_fee_num owner_trade_fee_den
       owner_withdraw_fee_num owner_withdraw_fee_den host_fee_num host_fee_den].
  rewrite !to_le_from_le by (first [apply slice_u8; exact Hu | apply slice_length; lia]).
  rewrite (slice_whole l 64 Hl) at 9.
  join 48%nat 8%nat 8%nat l. join 40%nat 8%nat 16%nat l. join 32%nat 8%nat 24%nat l. join 24%nat 8%nat 32%nat l. join 16%nat 8%nat 40%nat l. join 8%nat 8%nat 48%nat l. join 0%nat 8%nat 56%nat l. reflexivity.
Qed.

Lemma overwrite_prefix n l : overwrite (slice 0 n l) l = l.
Proof.
  unfold overwrite, slice. cbn [skipn]. rewrite firstn_length.
  destruct (Nat.le_ge_cases n (length l)) as [H | H].
  - rewrite Nat.min_l by exact H. apply firstn_skipn.
  - rewrite Nat.min_r by exact H. rewrite firstn_all2 by exact H. rewrite skipn_all. apply app_nil_r.
Qed.

Lemma curve_back l c : Forall is_u8 l -> length l = 33%nat -> unpack_curve l = Ok c ->
  pack_curve c l = l.
Proof.
  intros Hu Hl H. destruct l as [| t r]; [discriminate |].
  assert (Ht : known_tag t) by (apply (proj1 (unpack_curve_ok (t :: r))); exists c; exact H).
  assert (Hru : Forall is_u8 r) by (inversion Hu; assumption).
  assert (Hrl : length r = 32%nat) by (cbn [length] in Hl; lia).
  unfold unpack_curve in H. cbn [nth] in H. cbv zeta in H.
  assert (E8 : forall o, (o + 8 <= 32)%nat ->
            to_le 8 (from_le (slice o 8 (slice 1 32 (t :: r)))) = slice o 8 r).
  { intros o Ho. rewrite slice_slice by exact Ho. cbn [plus]. rewrite slice_cons.
    apply to_le_from_le; [apply slice_u8; exact Hru | apply slice_length; lia]. }
  assert (P : forall n, overwrite (t :: slice 0 n r) (t :: r) = t :: r).
  { intros n. change (t :: slice 0 n r) with (slice 0 (S n) (t :: r)). apply overwrite_prefix. }
  destruct Ht as [-> | [-> | [-> | [-> | ->]]]]; injection H as <-; unfold pack_curve;
    cbn [curve_tag pack_calculator slope_num slope_den price_num price_den];
    rewrite ?E8 by lia.
  - exact (P 0%nat).
  - exact (P 8%nat).
  - exact (P 8%nat).
  - exact (P 8%nat).
  - join 16%nat 8%nat 8%nat r. join 8%nat 8%nat 16%nat r. join 0%nat 8%nat 24%nat r.
    exact (P 32%nat).
Qed.

Lemma nth_slice1 l o : (o < length l)%nat -> [nth o l 0] = slice o 1 l.
Proof.
  unfold slice. revert l. induction o as [| o IH]; intros l H; destruct l as [| x l]; cbn [length] in H; try lia.
  - reflexivity.
  - cbn [skipn nth]. apply IH. lia.
Qed.

Lemma pack_unpack bytes s : Forall is_u8 bytes -> swap_unpack bytes = Ok s ->
  swap_pack s bytes = Ok bytes /\ swap_state_wf s /\ st_is_initialized s = true.
Proof.
  intros Hu H. destruct bytes as [| v r]; [discriminate |]. cbn [swap_unpack] in H.
  destruct (Z.eqb_spec v 1) as [-> | ?]; [| discriminate].
  destruct (Nat.eqb_spec (length r) SWAP_V1_LEN) as [Hl | ?]; [| discriminate].
  assert (Hr : Forall is_u8 r) by (inversion Hu; assumption). clear Hu.
  apply rbind_ok in H. destruct H as (s0 & H & Hi).
  destruct (st_is_initialized s0) eqn:Ei; [| discriminate]. injection Hi as ->.
  unfold unpack_v1_from in H. apply rbind_ok in H. destruct H as (i & H0 & H).
  apply rbind_ok in H. destruct H as (c & Hc & H). injection H as <-.
  cbn [st_is_initialized] in Ei. subst i.
  assert (H00 : nth 0 r 0 = 1).
  { destruct (nth 0 r 0) as [| p | p]; try discriminate. destruct p; try discriminate. reflexivity. }
  unfold SWAP_V1_LEN in Hl.
  assert (B : forall o n, from_le (slice o n r) = from_le (slice o n r) /\ Forall is_u8 (slice o n r))
    by (intros; split; [reflexivity | apply slice_u8, Hr]).
  assert (K : forall o, (o + 32 <= 323)%nat -> is_pubkey (from_le (slice o 32 r))).
  { intros o Ho. pose proof (from_le_bounds _ (slice_u8 o 32 r Hr)) as X.
    rewrite slice_length in X by lia. exact X. }
  assert (Q : forall l o, Forall is_u8 l -> (o + 8 <= length l)%nat -> is_u64 (from_le (slice o 8 l))).
  { intros l o Hul Ho. pose proof (from_le_bounds _ (slice_u8 o 8 l Hul)) as X.
    rewrite slice_length in X by lia. change (256 ^ Z.of_nat 8) with (2 ^ 64) in X.
    unfold is_u64, u64_max. lia. }
  assert (L64 : length (slice 226 64 r) = 64%nat) by (apply slice_length; lia).
  assert (L33 : length (slice 290 33 r) = 33%nat) by (apply slice_length; lia).
  split; [| split; [| reflexivity]].
  - unfold swap_pack. rewrite Hl. unfold SWAP_V1_LEN. rewrite Nat.eqb_refl. do 2 f_equal.
    unfold pack_v1_into, pack_key.
    cbn [st_is_initialized st_bump_seed st_token_program_id st_token_a st_token_b st_pool_mint
         st_token_a_mint st_token_b_mint st_pool_fee_account st_fees st_curve].
    rewrite !to_le_from_le by (first [apply slice_u8; exact Hr | apply slice_length; lia]).
    rewrite fees_back by (first [apply slice_u8; exact Hr | exact L64]).
    rewrite (curve_back _ _ (slice_u8 290 33 r Hr) L33 Hc).
    rewrite <- H00. rewrite !nth_slice1 by lia.
    rewrite (slice_whole r 323 Hl) at 12.
    join 226%nat 64%nat 33%nat r. join 194%nat 32%nat 97%nat r. join 162%nat 32%nat 129%nat r. join 130%nat 32%nat 161%nat r. join 98%nat 32%nat 193%nat r. join 66%nat 32%nat 225%nat r. join 34%nat 32%nat 257%nat r. join 2%nat 32%nat 289%nat r. join 1%nat 1%nat 321%nat r. join 0%nat 1%nat 322%nat r. reflexivity.
  - unfold swap_state_wf.
    cbn [st_bump_seed st_token_program_id st_token_a st_token_b st_pool_mint
         st_token_a_mint st_token_b_mint st_pool_fee_account st_fees st_curve].
    repeat split; try (apply K; lia);
      try (apply Q; [apply slice_u8; exact Hr | rewrite L64; lia]).
    + rewrite Forall_forall in Hr. apply (Hr (nth 1 r 0)). apply nth_In. lia.
    + rewrite Forall_forall in Hr. apply (Hr (nth 1 r 0)). apply nth_In. lia.
    + set (l := slice 290 33 r) in *. assert (Hul : Forall is_u8 l) by (apply slice_u8, Hr).
      assert (Ht : known_tag (nth 0 l 0)) by (apply (proj1 (unpack_curve_ok l)); exists c; exact Hc).
      assert (L32 : length (slice 1 32 l) = 32%nat) by (apply slice_length; lia).
      unfold unpack_curve in Hc. cbv zeta in Hc.
      destruct Ht as [E | [E | [E | [E | E]]]]; rewrite E in Hc; injection Hc as <-; cbn [curve_wf];
        try exact I; try (apply Q; [apply slice_u8; exact Hul | rewrite L32; lia]).
      repeat split; cbn [slope_num slope_den price_num price_den];
        apply (Q (slice 1 32 l)); try (apply slice_u8; exact Hul); rewrite L32; lia.
Qed.

(** ** Comparing curves *)
Lemma bytes_eqb_eq a b : bytes_eqb a b = true <-> a = b.
Proof.
  revert b. induction a as [| x a IH]; intros [| y b]; cbn [bytes_eqb]; split; intros H; try discriminate; auto.
  - apply andb_prop in H. destruct H as [H1 H2]. apply Z.eqb_eq in H1. apply IH in H2. congruence.
  - injection H as -> H. rewrite Z.eqb_refl. now apply IH.
Qed.

Lemma curve_eqb_eq c1 c2 : curve_wf c1 -> curve_wf c2 -> (curve_eqb c1 c2 = true <-> c1 = c2).
Proof.
  intros H1 H2. unfold curve_eqb. rewrite bytes_eqb_eq. split.
  - intros H. pose proof (curve_roundtrip c1 (repeat 0 33) H1) as R1.
    rewrite H, curve_roundtrip in R1 by exact H2. congruence.
  - intros ->. reflexivity.
Qed.
