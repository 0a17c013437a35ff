(** The entry point accepts exactly the wire format, and instructions write only to
    accounts that have to be writable. *)
From Coq Require Import String.
From Verif Require Import Ints Tactics Fees LinearCurve SwapCurve Codec Token Processor Api History Sha256 Entry
  Spec LedgerSpec CallSpec WireSpec CodecFacts CurveFacts TokenFacts ProcFacts CallFacts CreateFacts ExactFacts.

Lemma le64_to_le x : le64 x = to_le 8 x.
Proof.
  unfold le64, to_le. rewrite !Z.div_div by lia.
  change (2 ^ 8) with 256. change (256 * 256) with (2 ^ 16). change (2 ^ 16 * 256) with (2 ^ 24).
  change (2 ^ 24 * 256) with (2 ^ 32). change (2 ^ 32 * 256) with (2 ^ 40).
  change (2 ^ 40 * 256) with (2 ^ 48). change (2 ^ 48 * 256) with (2 ^ 56). reflexivity.
Qed.

Lemma bytes_eqb_iff a b : bytes_eqb a b = true <-> a = b.
Proof.
  revert b. induction a as [| x a IH]; intros [| y b]; cbn [bytes_eqb]; try (split; congruence).
  rewrite andb_true_iff, Z.eqb_eq, IH. split; [intros [-> ->]; reflexivity | intros E; injection E; auto].
Qed.

(** ** Reading arguments *)
Lemma firstn_exact (a b : list Z) n : length a = n -> firstn n (a ++ b) = a.
Proof. intros <-. rewrite firstn_app, Nat.sub_diag, firstn_all, firstn_O. apply app_nil_r. Qed.
Lemma skipn_exact (a b : list Z) n : length a = n -> skipn n (a ++ b) = b.
Proof. intros <-. rewrite skipn_app, Nat.sub_diag, skipn_all. reflexivity. Qed.
Lemma read_written args : forall rest, Forall is_u64 args ->
  read_u64s (length args) (flat_map (to_le 8) args ++ rest) = Some args.
Proof.
  induction args as [| x args IH]; intros rest H; [reflexivity |].
  apply Forall_cons_iff in H. destruct H as [Hx H]. cbn [length read_u64s flat_map].
  rewrite <- app_assoc.
  assert (L : Nat.ltb (length (to_le 8 x ++ flat_map (to_le 8) args ++ rest)) 8 = false).
  { apply Nat.ltb_ge. rewrite app_length, to_le_length. lia. }
  rewrite L, firstn_exact, skipn_exact by apply to_le_length. rewrite IH by exact H. now rewrite u64_le.
Qed.
Lemma written_read n : forall l args, Forall is_u8 l -> read_u64s n l = Some args ->
  length args = n /\ Forall is_u64 args /\ exists rest, l = flat_map (to_le 8) args ++ rest.
Proof.
  induction n as [| n IH]; intros l args Hu H; cbn [read_u64s] in H.
  - injection H as <-. split; [reflexivity |]. split; [constructor |]. exists l. reflexivity.
  - destruct (Nat.ltb_spec (length l) 8) as [| L]; [discriminate |].
    destruct (read_u64s n (skipn 8 l)) as [r |] eqn:E; [| discriminate].
    assert (A : args = from_le (firstn 8 l) :: r) by congruence. subst args. clear H.
    rewrite <- (firstn_skipn 8 l) in Hu. apply Forall_app in Hu. destruct Hu as [U1 U2].
    destruct (IH _ _ U2 E) as (L1 & F & rest & Er).
    assert (L8 : length (firstn 8 l) = 8%nat) by (rewrite firstn_length; lia).
    split; [cbn [length]; lia |]. split.
    + constructor; [| exact F]. pose proof (from_le_bounds _ U1) as B. rewrite L8 in B.
      unfold is_u64. replace (256 ^ Z.of_nat 8) with (u64_max + 1) in B by reflexivity. lia.
    + exists rest. cbn [flat_map]. rewrite to_le_from_le by assumption. rewrite <- app_assoc, <- Er.
      symmetry. apply firstn_skipn.
Qed.

(** ** Tags *)
Definition tags : list (list Z) :=
  [[125; 94; 220; 25; 84; 243; 56; 187]; [216; 58; 55; 98; 142; 240; 233; 224];
   [248; 198; 158; 145; 225; 117; 135; 200]; [32; 95; 69; 60; 75; 79; 205; 238];
   [189; 254; 156; 174; 210; 9; 164; 216]; [99; 207; 4; 42; 88; 157; 45; 55];
   [243; 192; 70; 139; 209; 156; 8; 139]].
Lemma tags_ok : map ep_tag entry_points = tags.
Proof. vm_compute. reflexivity. Qed.

Definition ep_number (i : instr) : nat :=
  match i with
  | InitConstantPrice _ _ _ => 0 | InitLinearPrice _ _ _ _ _ => 1 | Swap _ _ _ => 2 | DepositAll _ _ _ _ => 3
  | WithdrawAll _ _ _ _ => 4 | DepositSingle _ _ _ => 5 | WithdrawSingle _ _ _ => 6
  end.
Definition no_entry : entry_point := mk_entry [] 0 (fun acc _ => Swap acc 0 0).

Lemma wire_form i : wire i = nth (ep_number i) tags [] ++ flat_map (to_le 8) (instr_args i).
Proof.
  destruct i; cbn [wire ep_number nth tags instr_args flat_map]; rewrite !le64_to_le, ?app_nil_r, <- ?app_assoc; reflexivity.
Qed.
Lemma args_count i : length (instr_args i) = ep_args (nth (ep_number i) entry_points no_entry).
Proof. destruct i; reflexivity. Qed.
Lemma rebuild i : ep_instr (nth (ep_number i) entry_points no_entry) (instr_accounts i) (instr_args i) = i.
Proof. destruct i as [acc f p | | | | | |]; try reflexivity. destruct f. reflexivity. Qed.

Lemma find_nth {A} (p : A -> bool) l d x : find p l = Some x -> exists n, (n < length l)%nat /\ nth n l d = x /\ p x = true.
Proof.
  induction l as [| y l IH]; cbn [find]; [discriminate |]. destruct (p y) eqn:E.
  - intros H. injection H as <-. exists 0%nat. cbn. repeat split; [lia | exact E].
  - intros H. destruct (IH H) as (n & L & N & P). exists (S n). cbn. repeat split; [lia | exact N | exact P].
Qed.

Lemma find_tag tag n : (n < 7)%nat -> nth n tags [] = tag ->
  find (fun ep => bytes_eqb (ep_tag ep) tag) entry_points = Some (nth n entry_points no_entry).
Proof.
  intros L <-.
  assert (F : forall eps, find (fun ep => bytes_eqb (ep_tag ep) (nth n tags [])) eps
    = find (fun ep => bytes_eqb (ep_tag ep) (nth n tags [])) eps) by reflexivity.
  assert (T : forall m, (m < 7)%nat -> ep_tag (nth m entry_points no_entry) = nth m tags []).
  { intros m _. rewrite <- tags_ok. symmetry. change [] with (ep_tag no_entry). apply map_nth. }
  assert (E : entry_points = [nth 0 entry_points no_entry; nth 1 entry_points no_entry; nth 2 entry_points no_entry;
    nth 3 entry_points no_entry; nth 4 entry_points no_entry; nth 5 entry_points no_entry; nth 6 entry_points no_entry])
    by reflexivity.
  rewrite E at 1. cbn [find]. rewrite !T by lia. clear T F E.
  do 7 (destruct n as [| n]; [reflexivity |]). lia.
Qed.

Lemma decode_wire i rest : Forall is_u64 (instr_args i) -> decode (instr_accounts i) (wire i ++ rest) = Ok i.
Proof.
  intros H. unfold decode.
  assert (L7 : (ep_number i < 7)%nat) by (destruct i; cbn [ep_number]; lia).
  assert (L8 : length (nth (ep_number i) tags []) = 8%nat) by (destruct i; reflexivity).
  rewrite wire_form, <- app_assoc.
  assert (L : Nat.ltb (length (nth (ep_number i) tags [] ++ flat_map (to_le 8) (instr_args i) ++ rest)) 8 = false).
  { apply Nat.ltb_ge. rewrite app_length, L8. lia. }
  rewrite L, firstn_exact, skipn_exact by exact L8.
  rewrite (find_tag _ (ep_number i) L7 eq_refl), <- args_count, read_written by exact H.
  now rewrite rebuild.
Qed.

Lemma list_by_length (l : list Z) n : length l = n -> l = map (fun k => nth k l 0) (seq 0 n).
Proof.
  intros <-. induction l as [| x l IH]; [reflexivity |]. cbn [length seq map]. f_equal.
  rewrite <- seq_shift, map_map. exact IH.
Qed.

Lemma ep_back n acc args : (n < 7)%nat -> length args = ep_args (nth n entry_points no_entry) ->
  let i := ep_instr (nth n entry_points no_entry) acc args in
  ep_number i = n /\ instr_accounts i = acc /\ instr_args i = args.
Proof.
  intros L H. rewrite (list_by_length _ _ H). clear H. cbv zeta.
  do 7 (destruct n as [| n]; [repeat split; reflexivity |]). lia.
Qed.

Lemma wire_decode acc data i : Forall is_u8 data -> decode acc data = Ok i ->
  instr_accounts i = acc /\ Forall is_u64 (instr_args i) /\ exists rest, data = wire i ++ rest.
Proof.
  intros Hu H. unfold decode in H.
  destruct (Nat.ltb_spec (length data) 8) as [| L]; [discriminate |].
  destruct (find _ entry_points) as [ep |] eqn:F; [| discriminate].
  destruct (read_u64s _ _) as [args |] eqn:R; [| discriminate]. injection H as <-.
  destruct (find_nth _ _ no_entry _ F) as (n & Ln & <- & P). apply bytes_eqb_iff in P.
  change (length entry_points) with 7%nat in Ln.
  rewrite <- (firstn_skipn 8 data) in Hu. apply Forall_app in Hu. destruct Hu as [_ Hu].
  destruct (written_read _ _ _ Hu R) as (L1 & F1 & rest & E).
  destruct (ep_back n acc args Ln L1) as (B1 & B2 & B3). cbv zeta in *.
  split; [exact B2 |]. rewrite B3. split; [exact F1 |]. exists rest.
  rewrite wire_form, B1, B3, <- app_assoc, <- E.
  replace (nth n tags []) with (firstn 8 data); [symmetry; apply firstn_skipn |].
  rewrite <- P, <- tags_ok. change [] with (ep_tag no_entry). symmetry. apply map_nth.
Qed.

(** ** The entry point *)
Lemma must_write_positions i : (account_count i <= length (instr_accounts i))%nat ->
  map (fun n => nth n (instr_accounts i) 0) (mut_positions i) = must_write i.
Proof.
  destruct i as [l f p | l a b c d | l ain mout | l n ma mb | l n ma mb | l n mp | l n mp];
    cbn [account_count instr_accounts mut_positions]; intros H;
    (do 8 (destruct l as [| ? l]; [exfalso; cbn [length] in H; lia |]));
    repeat (destruct l as [| ? l]; [try (exfalso; cbn [length] in H; lia); reflexivity |]; try reflexivity).
Qed.
Lemma exec_shape e signers w i w' : exec e signers w i = Ok w' ->
  (account_count i <= length (instr_accounts i))%nat /\ Forall is_u64 (instr_args i).
Proof.
  intros H. unfold exec in H. apply rbind_ok in H. destruct H as (u & G & H). apply guard_ok, negb_false_iff in G.
  split.
  - destruct i; cbn [account_count instr_accounts]; apply rbind_ok in H; destruct H as (l & A & _);
      unfold anchor_accounts in A; apply rbind_ok in A; destruct A as (v & A & _); apply guard_ok, Nat.ltb_ge in A; exact A.
  - rewrite forallb_forall in G. apply Forall_forall. intros x Hx. specialize (G x Hx).
    unfold u64b in G. apply andb_true_iff in G. destruct G as [G1 G2]. unfold is_u64. lia.
Qed.

Lemma entry_exact e w t w' : Forall is_u8 (tx_data t) ->
  entry e w t = Ok w' <->
  exists i rest, tx_data t = wire i ++ rest /\ tx_accounts t = instr_accounts i /\
    incl (must_write i) (tx_writable t) /\ exec e (tx_signers t) w i = Ok w'.
Proof.
  intros Hu. unfold entry. split.
  - intros H. apply rbind_ok in H. destruct H as (i & D & H).
    destruct (wire_decode _ _ _ Hu D) as (A & _ & rest & E).
    apply rbind_ok in H. destruct H as (u & G1 & H). apply guard_ok, Nat.ltb_ge in G1.
    apply rbind_ok in H. destruct H as (v & G2 & H). apply guard_ok, negb_false_iff in G2.
    rewrite <- A in G1, G2. exists i, rest. split; [exact E |]. split; [now symmetry |]. split; [| exact H].
    rewrite <- must_write_positions by exact G1. intros k Hk. apply in_map_iff in Hk. destruct Hk as (n & <- & Hn).
    rewrite forallb_forall in G2. apply mem_In. exact (G2 n Hn).
  - intros (i & rest & E & A & Wr & H). destruct (exec_shape _ _ _ _ _ H) as (L & U).
    rewrite E, A, decode_wire by exact U. cbn [rbind].
    replace (Nat.ltb (length (instr_accounts i)) (account_count i)) with false by (symmetry; now apply Nat.ltb_ge).
    cbn [guard rbind].
    replace (forallb _ (mut_positions i)) with true; [exact H |]. symmetry. apply forallb_forall. intros n Hn.
    apply mem_In, Wr. rewrite <- must_write_positions by exact L. exact (in_map (fun n => nth n (instr_accounts i) 0) _ _ Hn).
Qed.

(** ** Writes *)
Lemma call_frame signed w c w' k : call_ok signed w c w' -> ~ In k (call_writes c) -> w' k = w k.
Proof.
  intros H N. unfold with2 in *.
  destruct c as [s d a x | m d a x | s m a x]; cbn [call_ok call_writes In] in *.
  - destruct H as (ts & td & ts' & _ & _ & _ & _ & _ & _ & [(_ & ->) | (_ & _ & ->)]); [reflexivity |].
    unfold with2. destruct (Z.eqb_spec k d), (Z.eqb_spec k s); tauto || reflexivity || (exfalso; apply N; auto).
  - destruct H as (mt & td & _ & _ & _ & _ & _ & _ & _ & _ & _ & ->).
    unfold with2. destruct (Z.eqb_spec k m), (Z.eqb_spec k d); tauto || reflexivity || (exfalso; apply N; auto).
  - destruct H as (mt & ts & ts' & _ & _ & _ & _ & _ & _ & _ & ->).
    unfold with2. destruct (Z.eqb_spec k m), (Z.eqb_spec k s); tauto || reflexivity || (exfalso; apply N; auto).
Qed.
Lemma calls_frame signed l : forall w w' k, calls_ok signed w l w' ->
  (forall c, In c l -> ~ In k (call_writes c)) -> w' k = w k.
Proof.
  induction l as [| c l IH]; intros w w' k H N; cbn [calls_ok] in H; [now subst |].
  destruct H as (w1 & H1 & H2).
  rewrite (IH _ _ _ H2) by (intros c' Hc'; apply N; now right).
  apply (call_frame _ _ _ _ _ H1). apply N. now left.
Qed.

Lemma if_any_all (P : call -> Prop) x c : P c -> Forall P (if_any x c).
Proof. intros H. unfold if_any. destruct (0 <? x); constructor; auto. Qed.

Ltac writes := unfold incl; cbn [call_writes In]; intuition (subst; auto 10).

Lemma exec_calls e signers w i w' : world_wf w -> exec e signers w i = Ok w' ->
  exists authority bump calls w1,
    create_pda e (named_pool i) bump = Some authority /\
    calls_ok (authority :: signers) w calls w1 /\
    Forall (fun c => incl (call_writes c) (must_write i)) calls /\
    (w' = w1 \/ creates i /\ In (named_pool i) (must_write i) /\ forall k, k <> named_pool i -> w' k = w1 k).
Proof.
  intros W H. destruct i as [acc f p | acc a b c d | acc ain mout | acc n ma mb | acc n ma mb | acc n mp | acc n mp].
  1, 2: pose proof H as H'; apply create_inv in H; [| exact I];
    destruct H as (pool & authority & ka & kb & mint & fee & dest & tp & rest & f' & c' & A & _ & _ & _ & _ & H);
    cbn [instr_accounts] in A; subst acc; apply initialize_trace in H;
    destruct H as (bump & ta & tb & tf & td & pm & w1 & bytes & H);
    do 26 (destruct H as [_ H]); destruct H as ((au & Hp & Hr) & _ & _ & ->);
    exists au, bump, [CMint mint dest authority INITIAL_SWAP_POOL_AMOUNT], w1;
    split; [exact Hp |]; split; [apply calls_iff; exact Hr |];
    (split; [constructor; [| constructor]; cbn [must_write]; writes |]);
    right; (split; [exact I |]); (split; [now left |]); intros k Hk; unfold named_pool in Hk; cbn [instr_accounts nth] in Hk;
    apply upd_other; exact Hk.
  - apply swap_exact in H.
    destruct H as (pool & authority & user & source & ssrc & sdst & dest & rest & s & ta & tb & pm & r & minted & -> & H).
    cbv zeta in H. destruct H as (_ & _ & _ & _ & _ & Hp & _ & _ & _ & _ & _ & _ & _ & _ & _ & _ & _ & _ & H).
    exists authority, (st_bump_seed s). eexists. exists w'.
    split; [exact Hp |]. split; [exact H |]. split; [| now left].
    cbn [must_write]. constructor; [writes |]. apply Forall_app. split; [apply if_any_all; writes | constructor; [writes | constructor]].
  - apply deposit_all_exact in H; [| exact W].
    destruct H as (pool & authority & user & source_a & source_b & dest & rest & s & ta & tb & pm & a & b & -> & H).
    destruct H as (_ & _ & _ & _ & _ & _ & Hp & _ & _ & _ & _ & _ & _ & H).
    destruct (if m_supply pm =? 0 then _ else _) as [minted outs] in H. destruct H as (_ & _ & _ & _ & _ & H).
    exists authority, (st_bump_seed s). eexists. exists w'.
    split; [exact Hp |]. split; [exact H |]. split; [| now left].
    cbn [must_write]. repeat (constructor; [writes |]). constructor.
  - apply withdraw_all_exact in H; [| exact W].
    destruct H as (pool & authority & user & source & dest_a & dest_b & rest & s & ta & tb & pm & charge & sa & sb & -> & H).
    cbv zeta in H.
    destruct H as (_ & _ & _ & _ & _ & _ & Hp & _ & _ & _ & _ & _ & _ & _ & _ & _ & _ & _ & _ & _ & _ & H).
    exists authority, (st_bump_seed s). eexists. exists w'.
    split; [exact Hp |]. split; [exact H |]. split; [| now left].
    cbn [must_write]. repeat (apply Forall_app; split); try (apply if_any_all; writes). constructor; [writes | constructor].
  - apply deposit_single_exact in H; [| exact W].
    destruct H as (pool & authority & user & source & dest & rest & s & ts & ta & tb & pm & d & minted & -> & H).
    destruct H as (_ & _ & _ & _ & _ & Hp & _ & _ & _ & _ & _ & _ & _ & _ & _ & H).
    exists authority, (st_bump_seed s). eexists. exists w'.
    split; [exact Hp |]. split; [exact H |]. split; [| now left].
    cbn [must_write]. unfold side_vault. repeat (constructor; [destruct d; writes |]). constructor.
  - apply withdraw_single_exact in H; [| exact W].
    destruct H as (pool & authority & user & source & dest & rest & s & td & ta & tb & pm & d & burnt & charge & -> & H).
    destruct H as (_ & _ & _ & _ & _ & Hp & _ & _ & _ & _ & _ & _ & _ & _ & _ & _ & H).
    exists authority, (st_bump_seed s). eexists. exists w'.
    split; [exact Hp |]. split; [exact H |]. split; [| now left].
    cbn [must_write]. unfold side_vault. apply Forall_app. split; [apply if_any_all; writes |].
    repeat (constructor; [destruct d; writes |]). constructor.
Qed.

Lemma exec_writes e signers w i w' k : world_wf w -> exec e signers w i = Ok w' -> w' k <> w k -> In k (must_write i).
Proof.
  intros W H N. destruct (exec_calls _ _ _ _ _ W H) as (au & bump & calls & w1 & _ & Hc & Hf & Hw).
  destruct (in_dec Z.eq_dec k (must_write i)) as [| Nk]; [assumption |]. exfalso. apply N.
  assert (E : w1 k = w k).
  { apply (calls_frame _ _ _ _ _ Hc). intros c Hin Hk. rewrite Forall_forall in Hf. exact (Nk (Hf c Hin k Hk)). }
  destruct Hw as [-> | (_ & Hn & Hw)]; [exact E |]. rewrite Hw; [exact E |]. intros ->. contradiction.
Qed.

Lemma entry_writes e w t w' k : Forall is_u8 (tx_data t) -> world_wf w -> entry e w t = Ok w' ->
  w' k <> w k -> In k (tx_writable t).
Proof.
  intros Hu W H N. apply entry_exact in H; [| exact Hu]. destruct H as (i & rest & _ & _ & Wr & H).
  apply Wr. exact (exec_writes _ _ _ _ _ _ W H N).
Qed.
Lemma entry_calls e w t w' : Forall is_u8 (tx_data t) -> world_wf w -> entry e w t = Ok w' ->
  exists authority pool bump calls w1,
    create_pda e pool bump = Some authority /\ In pool (tx_accounts t) /\
    calls_ok (authority :: tx_signers t) w calls w1 /\
    (forall c k, In c calls -> In k (call_writes c) -> In k (tx_writable t)) /\
    (forall k, w' k = w1 k \/ k = pool /\ In pool (tx_writable t)).
Proof.
  intros Hu W H. apply entry_exact in H; [| exact Hu]. destruct H as (i & rest & _ & A & Wr & H).
  destruct (exec_shape _ _ _ _ _ H) as (L & _).
  destruct (exec_calls _ _ _ _ _ W H) as (au & bump & calls & w1 & Hp & Hc & Hf & Hw).
  exists au, (named_pool i), bump, calls, w1. split; [exact Hp |]. split.
  { rewrite A. apply nth_In. destruct i; cbn [account_count] in L; lia. }
  split; [exact Hc |]. split.
  - intros c k Hin Hk. rewrite Forall_forall in Hf. exact (Wr _ (Hf c Hin k Hk)).
  - intros k. destruct Hw as [-> | (_ & Hn & Hw)]; [now left |].
    destruct (Z.eq_dec k (named_pool i)) as [-> | Nk]; [right; split; [reflexivity | exact (Wr _ Hn)] | left; exact (Hw k Nk)].
Qed.
