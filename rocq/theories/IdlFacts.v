(** What the instructions for interface descriptions do (C112 - C114). *)
From Coq Require Import String.
From Verif Require Import Ints Tactics Fees LinearCurve SwapCurve Codec Token Processor Api History Sha256 Entry Idl
  Spec LedgerSpec CallSpec WireSpec CodecFacts TokenFacts ProcFacts CreateFacts EntryFacts HistoryFacts IdlSpec CallSpec ExactFacts.

Definition TAG : list Z := [24; 70; 98; 191; 58; 144; 123; 158].
Lemma tag_ok : IDL_ACCOUNT_TAG = TAG.
Proof. vm_compute. reflexivity. Qed.
Lemma tag_u8 : Forall is_u8 TAG.
Proof. unfold TAG, is_u8. repeat (constructor; [lia |]). constructor. Qed.

Lemma pack_tag a : idl_pack a = TAG ++ to_le 32 (idl_authority a) ++ to_le 4 (Z.of_nat (length (idl_data a))) ++ idl_data a.
Proof. unfold idl_pack. now rewrite tag_ok. Qed.
Lemma pack_length a : length (idl_pack a) = (44 + length (idl_data a))%nat.
Proof. rewrite pack_tag, !app_length, !to_le_length. reflexivity. Qed.

(** ** Storing *)
Definition tagged (a : account) : Prop := a_owner a = PROGRAM_ID /\ exists l, a_data a = DRaw (TAG ++ l).

Lemma store_inv w k a w' : idl_store w k a = Ok w' ->
  a_owner (w k) = PROGRAM_ID /\ Z.of_nat (length (idl_data a)) < 2 ^ 32 /\
  exists rest, w' = upd w k (mk_account PROGRAM_ID (DRaw (idl_pack a ++ rest))) /\
    rest = skipn (length (idl_pack a)) (raw_of (a_data (w k))) /\
    length (idl_pack a ++ rest) = length (raw_of (a_data (w k))).
Proof.
  unfold idl_store. intros H.
  apply rbind_ok in H. destruct H as (u1 & G1 & H). apply guard_ok, Z.ltb_ge in G1.
  apply rbind_ok in H. destruct H as (u2 & G2 & H). apply guard_ok, Nat.ltb_ge in G2.
  apply rbind_ok in H. destruct H as (u3 & G3 & H). apply guard_ok, negb_false_iff, Z.eqb_eq in G3.
  injection H as <-. split; [exact G3 |]. split; [unfold u32_max in G1; lia |].
  eexists. split; [unfold overwrite; reflexivity |]. split; [reflexivity |].
  rewrite app_length, skipn_length. lia.
Qed.

Lemma upd_same w k a : upd w k a k = a.
Proof. unfold upd. now rewrite Z.eqb_refl. Qed.
Lemma upd_other w k a k' : k' <> k -> upd w k a k' = w k'.
Proof. intros N. unfold upd. apply Z.eqb_neq in N. now rewrite N. Qed.

(** What a change of one account by these instructions can be. *)
Inductive touched (signers : list Z) (ie : idl_env) (w w' : world) (k : Z) : Prop :=
| untouched : w' k = w k -> touched signers ie w w' k
| made : k = idl_address ie -> a_owner (w k) = SYSTEM_PROGRAM_ID -> a_data (w k) = DRaw [] -> tagged (w' k) -> touched signers ie w w' k
| buffered : a_owner (w k) = PROGRAM_ID -> (8 <= length (raw_of (a_data (w k))))%nat -> from_le (firstn 8 (raw_of (a_data (w k)))) = 0 ->
    length (raw_of (a_data (w' k))) = length (raw_of (a_data (w k))) -> tagged (w' k) -> touched signers ie w w' k
| changed a : idl_load w k = Ok a -> In (idl_authority a) signers ->
    length (raw_of (a_data (w' k))) = length (raw_of (a_data (w k))) -> tagged (w' k) -> touched signers ie w w' k.

Lemma stored_tagged w k a w' : idl_store w k a = Ok w' -> tagged (w' k) /\ (forall k', k' <> k -> w' k' = w k') /\
  length (raw_of (a_data (w' k))) = length (raw_of (a_data (w k))).
Proof.
  intros H. apply store_inv in H. destruct H as (_ & _ & rest & -> & _ & L). split; [| split].
  - rewrite upd_same. split; [reflexivity |]. rewrite pack_tag, <- app_assoc. eexists. reflexivity.
  - intros k' N. now apply upd_other.
  - rewrite upd_same. exact L.
Qed.

Lemma mem_in k l : mem k l = true <-> In k l.
Proof.
  unfold mem. rewrite existsb_exists. split.
  - intros (x & H & E). apply Z.eqb_eq in E. now subst.
  - intros H. exists k. split; [exact H | apply Z.eqb_refl].
Qed.

Lemma signed_inv signers au u : idl_signed signers au = Ok u -> In au signers /\ au <> 0.
Proof.
  unfold idl_signed. intros H. apply rbind_ok in H. destruct H as (v & G & H). apply guard_ok, negb_false_iff, mem_in in G.
  apply guard_ok, Z.eqb_neq in H. auto.
Qed.

Ltac gb H := let G := fresh "G" in let u := fresh "u" in
  apply rbind_ok in H; destruct H as (u & G & H); first [apply guard_ok in G | idtac].

Lemma idl_touches ie signers writable accounts w i w' : idl_checked ie = true -> idl_env_ok ie signers w ->
  idl_exec ie signers writable accounts w i = Ok w' -> forall k, touched signers ie w w' k.
Proof.
  intros Hck (N1 & N2 & N3 & S1 & S2 & B) H k.
  destruct i as [n | | data | | na]; cbn [idl_exec] in H.
  - destruct accounts as [| from [| to [| base [| system [| program rest]]]]]; try discriminate.
    gb H. apply negb_false_iff, mem_in in G. gb H. gb H. rewrite Hck in G1. cbn [andb] in G1. apply negb_false_iff, Z.eqb_eq in G1.
    gb H. gb H. apply negb_false_iff, andb_true_iff in G3. destruct G3 as [M1 M2]. apply mem_in in M1, M2.
    gb H. gb H. gb H. apply negb_false_iff, Z.eqb_eq in G5.
    apply rbind_ok in H. destruct H as (w1 & H1 & H).
    destruct (a_data (w (idl_address ie))) as [| | l] eqn:Ed; try discriminate. destruct l; [| discriminate]. injection H1 as <-.
    assert (T : to = idl_address ie).
    { cbn [In] in M1, M2. destruct M1 as [E | [E | [E | [E | []]]]]; [subst; contradiction | exact E | | subst; congruence].
      destruct M2 as [F | [F | [F | [F | []]]]]; [subst; contradiction | | congruence | subst; congruence].
      exfalso. destruct (idl_read_unchecked _); [| discriminate]. apply store_inv in H. destruct H as (Ow & _).
      rewrite upd_other in Ow by congruence. subst to. contradiction. }
    subst to. destruct (idl_read_unchecked _) as [a |]; [| discriminate]. apply stored_tagged in H. destruct H as (T & F & _).
    destruct (Z.eq_dec k (idl_address ie)) as [-> | Nk].
    + apply made; auto.
    + apply untouched. rewrite F by exact Nk. now apply upd_other.
  - destruct accounts as [| buffer [| authority [| rent rest]]]; try discriminate.
    gb H. apply Nat.ltb_ge in G. gb H. apply negb_false_iff, Z.eqb_eq in G0. gb H. apply negb_false_iff, Z.eqb_eq in G1.
    destruct (idl_read_unchecked _) as [a |]; [| discriminate]. gb H. gb H. apply stored_tagged in H. destruct H as (T & F & L).
    destruct (Z.eq_dec k buffer) as [-> | Nk]; [now apply buffered | apply untouched; now apply F].
  - destruct accounts as [| idl [| authority rest]]; try discriminate.
    apply rbind_ok in H. destruct H as (a & La & H). gb H. gb H. apply negb_false_iff, Z.eqb_eq in G0. gb H. apply signed_inv in G1.
    apply stored_tagged in H. destruct H as (T & F & L).
    destruct (Z.eq_dec k idl) as [-> | Nk]; [apply (changed _ _ _ _ _ a); auto; rewrite G0; apply G1 | apply untouched; now apply F].
  - destruct accounts as [| buffer [| idl [| authority rest]]]; try discriminate.
    apply rbind_ok in H. destruct H as (b & Lb & H). apply rbind_ok in H. destruct H as (a & La & H).
    gb H. gb H. apply negb_false_iff, Z.eqb_eq in G0. gb H. apply negb_false_iff, Z.eqb_eq in G1. gb H. apply signed_inv in G2.
    apply rbind_ok in H. destruct H as (w1 & H1 & H). apply stored_tagged in H1. destruct H1 as (T1 & F1 & L1).
    apply stored_tagged in H. destruct H as (T & F & L).
    destruct (Z.eq_dec k idl) as [-> | Nk].
    + apply (changed _ _ _ _ _ a); auto; [rewrite G1; apply G2 |]. rewrite L.
      destruct (Z.eq_dec idl buffer) as [-> | Nb]; [exact L1 | now rewrite F1].
    + destruct (Z.eq_dec k buffer) as [-> | Nb].
      * apply (changed _ _ _ _ _ b); auto; [rewrite G0, G1; apply G2 | rewrite (F _ Nk); exact L1 | rewrite (F _ Nk); exact T1].
      * apply untouched. rewrite (F _ Nk). now apply F1.
  - destruct accounts as [| idl [| authority rest]]; try discriminate.
    apply rbind_ok in H. destruct H as (a & La & H). gb H. gb H. apply negb_false_iff, Z.eqb_eq in G0. gb H. apply signed_inv in G1.
    apply stored_tagged in H. destruct H as (T & F & L).
    destruct (Z.eq_dec k idl) as [-> | Nk]; [apply (changed _ _ _ _ _ a); auto; rewrite G0; apply G1 | apply untouched; now apply F].
Qed.

(** ** Bytes stay bytes *)
Lemma raw_u8 w k : world_wf w -> Forall is_u8 (raw_of (a_data (w k))).
Proof. intros W. specialize (W k). unfold account_wf in W. destruct (a_data (w k)); cbn [raw_of]; auto. Qed.
Lemma read_u8 l a : Forall is_u8 l -> idl_read_unchecked l = Some a -> Forall is_u8 (idl_data a).
Proof.
  unfold idl_read_unchecked. intros Hl H. destruct (Nat.ltb _ _); [discriminate |]. cbv zeta in H.
  destruct (_ <? _); [discriminate |]. injection H as <-. cbn [idl_data].
  rewrite <- (firstn_skipn 44 l) in Hl. apply Forall_app in Hl. destruct Hl as [_ Hl].
  rewrite <- (firstn_skipn (Z.to_nat (from_le (slice 40 4 l))) (skipn 44 l)) in Hl. apply Forall_app in Hl. apply Hl.
Qed.
Lemma load_u8 w k a : world_wf w -> idl_load w k = Ok a -> Forall is_u8 (idl_data a).
Proof.
  intros W H. unfold idl_load in H. gb H. cbv zeta in H. gb H.
  destruct (idl_read_unchecked _) as [b |] eqn:E; [| discriminate]. injection H as ->. exact (read_u8 _ _ (raw_u8 _ _ W) E).
Qed.
Lemma pack_u8 a : Forall is_u8 (idl_data a) -> Forall is_u8 (idl_pack a).
Proof. intros H. rewrite pack_tag. repeat (apply Forall_app; split); auto using tag_u8, to_le_u8. Qed.
Lemma store_wf w k a w' : world_wf w -> Forall is_u8 (idl_data a) -> idl_store w k a = Ok w' -> world_wf w'.
Proof.
  intros W Ha H k'. apply store_inv in H. destruct H as (_ & _ & rest & -> & Hr & _).
  destruct (Z.eq_dec k' k) as [-> | N]; [| rewrite upd_other by exact N; apply W]. rewrite upd_same.
  unfold account_wf. cbn [a_data]. apply Forall_app. split; [now apply pack_u8 |]. subst rest.
  pose proof (raw_u8 w k W) as Hl. rewrite <- (firstn_skipn (length (idl_pack a))) in Hl. apply Forall_app in Hl. apply Hl.
Qed.
Lemma upd_wf w k a : world_wf w -> account_wf a -> world_wf (upd w k a).
Proof. intros W Ha k'. unfold upd. destruct (k' =? k); auto. Qed.

Definition idl_instr_wf (i : idl_instr) : Prop := match i with IdlWrite data => Forall is_u8 data | _ => True end.

Lemma idl_exec_wf ie signers writable accounts w i w' : world_wf w -> idl_instr_wf i ->
  idl_exec ie signers writable accounts w i = Ok w' -> world_wf w'.
Proof.
  intros W Hi H. destruct i as [n | | data | | na]; cbn [idl_exec idl_instr_wf] in *.
  - destruct accounts as [| from [| to [| base [| system [| program rest]]]]]; try discriminate.
    do 8 gb H. apply rbind_ok in H. destruct H as (w1 & H1 & H).
    assert (W1 : world_wf w1).
    { destruct (a_data (w (idl_address ie))) as [| | l]; try discriminate. destruct l; [| discriminate]. injection H1 as <-.
      apply upd_wf; [exact W |]. unfold account_wf. cbn [a_data]. apply Forall_forall. intros x Hx. apply repeat_spec in Hx.
      subst x. unfold is_u8. lia. }
    destruct (idl_read_unchecked _) as [a |] eqn:E; [| discriminate]. refine (store_wf _ _ _ _ W1 _ H). cbn [idl_data].
    exact (read_u8 _ _ (raw_u8 _ _ W1) E).
  - destruct accounts as [| buffer [| authority [| rent rest]]]; try discriminate. do 3 gb H.
    destruct (idl_read_unchecked _) as [a |] eqn:E; [| discriminate]. do 2 gb H.
    refine (store_wf _ _ _ _ W _ H). exact (read_u8 _ _ (raw_u8 _ _ W) E).
  - destruct accounts as [| idl [| authority rest]]; try discriminate.
    apply rbind_ok in H. destruct H as (a & La & H). do 3 gb H. refine (store_wf _ _ _ _ W _ H). cbn [idl_data].
    apply Forall_app. split; [exact (load_u8 _ _ _ W La) | exact Hi].
  - destruct accounts as [| buffer [| idl [| authority rest]]]; try discriminate.
    apply rbind_ok in H. destruct H as (b & Lb & H). apply rbind_ok in H. destruct H as (a & La & H). do 4 gb H.
    apply rbind_ok in H. destruct H as (w1 & H1 & H). refine (store_wf _ _ _ _ (store_wf _ _ _ _ W _ H1) _ H); exact (load_u8 _ _ _ W Lb).
  - destruct accounts as [| idl [| authority rest]]; try discriminate.
    apply rbind_ok in H. destruct H as (a & La & H). do 3 gb H. refine (store_wf _ _ _ _ W _ H). exact (load_u8 _ _ _ W La).
Qed.

Lemma decode_wf l i : Forall is_u8 l -> idl_decode l = Ok i -> idl_instr_wf i.
Proof.
  intros Hl H. destruct i; cbn [idl_instr_wf]; try exact I. destruct l as [| b r]; [discriminate |].
  apply Forall_cons_iff in Hl. destruct Hl as [_ Hr].
  assert (Hf : forall n, Forall is_u8 (firstn n (skipn 4 r))).
  { intros n. rewrite <- (firstn_skipn 4 r) in Hr. apply Forall_app in Hr. destruct Hr as [_ Hr].
    rewrite <- (firstn_skipn n (skipn 4 r)) in Hr. apply Forall_app in Hr. apply Hr. }
  assert (H2 : (if Nat.ltb (length r) 4 then Err ERuntime
      else let n := from_le (firstn 4 r) in
           if Z.of_nat (length r) - 4 <? n then Err ERuntime
           else Ok (IdlWrite (firstn (Z.to_nat n) (skipn 4 r)))) = Ok (IdlWrite data)).
  { revert H. unfold idl_decode. 
    repeat match goal with |- context [match ?x with _ => _ end] => is_var x; destruct x end; try discriminate; auto;
    destruct (Nat.ltb _ _); discriminate. }
  destruct (Nat.ltb _ _); [discriminate |]. cbv zeta in H2. destruct (_ <? _); [discriminate |]. injection H2 as <-. apply Hf.
Qed.

(** ** These instructions are among what other programs may do *)
Lemma tagged_not a : tagged a -> ~ versioned (a_data a).
Proof. intros (_ & l & E) (l' & E'). rewrite E in E'. discriminate. Qed.
Lemma zero_not a : (8 <= length (raw_of (a_data a)))%nat -> Forall is_u8 (raw_of (a_data a)) ->
  from_le (firstn 8 (raw_of (a_data a))) = 0 -> ~ versioned (a_data a).
Proof.
  intros L U Hz (l & E). rewrite E in *. cbn [raw_of firstn from_le] in *. apply Forall_cons_iff in U. destruct U as [_ U].
  rewrite <- (firstn_skipn 7 l) in U. apply Forall_app in U. destruct U as [U _]. pose proof (from_le_bounds _ U). lia.
Qed.
Lemma load_not w k a : idl_load w k = Ok a -> a_owner (w k) = PROGRAM_ID /\ ~ versioned (a_data (w k)).
Proof.
  unfold idl_load. intros H. gb H. apply negb_false_iff, Z.eqb_eq in G. cbv zeta in H. gb H. apply negb_false_iff, bytes_eqb_iff in G0.
  split; [exact G |]. intros (l & E). rewrite E, tag_ok in G0. discriminate G0.
Qed.

Lemma touched_external e signers ie w w' k : world_wf w -> touched signers ie w w' k -> external_account_ok e (w k) (w' k).
Proof.
  intros W [E | E1 E2 E3 E4 | E1 E2 E3 E4 E5 | a E1 E2 E3 E4].
  - rewrite E. split; [auto |]. split; [auto |]. split.
    + intros t O D P Nd Nc. split; [exact O |]. exists (t_amount t), (t_frozen t). split; [lia |]. rewrite D. destruct t; cbn in *; congruence.
    + intros m au O D A P F. split; [exact O |]. exists (m_supply m). split; [lia |]. rewrite D. destruct m; cbn in *; congruence.
  - split; [rewrite E2; discriminate |]. split; [intros _; right; now apply tagged_not |].
    split; rewrite E2; discriminate.
  - split; [intros _ V; exfalso; revert V; apply zero_not; auto using raw_u8 |]. split; [intros _; right; now apply tagged_not |].
    split; rewrite E1; discriminate.
  - apply load_not in E1. destruct E1 as [O V]. split; [intros _ V'; contradiction |].
    split; [intros _; right; now apply tagged_not |]. split; rewrite O; discriminate.
Qed.

Lemma idl_external e ie signers writable accounts w i w' : world_wf w -> idl_instr_wf i ->
  idl_checked ie = true -> idl_env_ok ie signers w ->
  idl_exec ie signers writable accounts w i = Ok w' -> external_ok e w w'.
Proof.
  intros W Hi Hck Ho H. split; [exact (idl_exec_wf _ _ _ _ _ _ _ W Hi H) |]. intros k.
  exact (touched_external _ _ _ _ _ _ W (idl_touches _ _ _ _ _ _ _ Hck Ho H k)).
Qed.

(** Every call of the program is a step of the ledger. *)
Lemma full_entry_step e ie w t w' : world_wf w -> Forall is_u8 (tx_data t) -> Forall is_pubkey (tx_accounts t) ->
  signers_ok e (tx_signers t) -> idl_checked ie = true -> idl_env_ok ie (tx_signers t) w ->
  full_entry e ie w t = Ok w' ->
  (exists i, step e w (Instruction (tx_signers t) i) w' /\ tx_accounts t = instr_accounts i) \/ step e w External w'.
Proof.
  intros W Hu Hk Hs Hck Ho H. unfold full_entry in H. destruct (Nat.ltb _ _); [discriminate |].
  destruct (bytes_eqb _ _).
  - right. apply rbind_ok in H. destruct H as (i & D & H). constructor. refine (idl_external _ _ _ _ _ _ _ _ W _ Hck Ho H).
    apply (decode_wf (skipn 8 (tx_data t))); [| exact D].
    rewrite <- (firstn_skipn 8 (tx_data t)) in Hu. apply Forall_app in Hu. apply Hu.
  - left. apply entry_exact in H; [| exact Hu]. destruct H as (i & rest & _ & A & _ & H). exists i. split; [| exact A].
    constructor; auto. rewrite <- A. exact Hk.
Qed.

(** ** Descriptions *)
Lemma skipn_add (l : list Z) : forall m n, skipn m (skipn n l) = skipn (m + n) l.
Proof.
  intros m n. revert l. induction n as [| n IH]; intros l; [now rewrite Nat.add_0_r |].
  rewrite Nat.add_succ_r. destruct l as [| x l]; [rewrite !skipn_nil; reflexivity | apply IH].
Qed.
Lemma read_described au data rest : is_pubkey au -> Z.of_nat (length data) < 2 ^ 32 ->
  idl_read_unchecked (TAG ++ to_le 32 au ++ to_le 4 (Z.of_nat (length data)) ++ data ++ rest) = Some (mk_idl au data).
Proof.
  intros Ha Hd. unfold idl_read_unchecked, slice.
  set (l := TAG ++ _). assert (L : length l = (44 + length data + length rest)%nat).
  { unfold l. rewrite !app_length, !to_le_length. cbn [length TAG]. lia. }
  assert (S8 : skipn 8 l = to_le 32 au ++ to_le 4 (Z.of_nat (length data)) ++ data ++ rest) by reflexivity.
  assert (S40 : skipn 40 l = to_le 4 (Z.of_nat (length data)) ++ data ++ rest).
  { change 40%nat with (32 + 8)%nat. rewrite <- skipn_add, S8. apply skipn_exact, to_le_length. }
  assert (S44 : skipn 44 l = data ++ rest).
  { change 44%nat with (4 + 40)%nat. rewrite <- skipn_add, S40. apply skipn_exact, to_le_length. }
  rewrite S8, S40, S44, !firstn_exact by apply to_le_length.
  rewrite !from_le_to_le by (unfold is_pubkey in *; change (256 ^ Z.of_nat 32) with (2 ^ 256); change (256 ^ Z.of_nat 4) with (2 ^ 32); lia).
  rewrite Nat2Z.id, firstn_exact by reflexivity.
  destruct (Nat.ltb_spec (length l) 44); [lia |]. destruct (Z.ltb_spec (Z.of_nat (length l) - 44) (Z.of_nat (length data))); [lia | reflexivity].
Qed.

Lemma described_load w k au data : described w k au data -> idl_load w k = Ok (mk_idl au data).
Proof.
  intros (Ha & Hd & O & rest & E). unfold idl_load. rewrite O, E, Z.eqb_refl. cbn [negb guard rbind raw_of].
  change ([24; 70; 98; 191; 58; 144; 123; 158]) with TAG. rewrite tag_ok.
  assert (F : firstn 8 (TAG ++ to_le 32 au ++ to_le 4 (Z.of_nat (length data)) ++ data ++ rest) = TAG) by reflexivity.
  rewrite F. assert (B : bytes_eqb TAG TAG = true) by (now apply bytes_eqb_iff). rewrite B. cbn [negb guard rbind].
  now rewrite read_described.
Qed.

Lemma store_described w k a w' : is_pubkey (idl_authority a) -> idl_store w k a = Ok w' ->
  described w' k (idl_authority a) (idl_data a) /\ (forall k', k' <> k -> w' k' = w k').
Proof.
  intros Ha H. apply store_inv in H. destruct H as (_ & L & rest & -> & _). split; [| intros k' N; now apply upd_other].
  split; [exact Ha |]. split; [exact L |]. rewrite upd_same. split; [reflexivity |]. exists rest. cbn [a_data].
  rewrite pack_tag, <- !app_assoc. reflexivity.
Qed.

Lemma load_described w k a : world_wf w -> idl_load w k = Ok a -> described w k (idl_authority a) (idl_data a).
Proof.
  intros W H. pose proof (raw_u8 w k W) as U. pose proof (load_not _ _ _ H) as (O & _). unfold idl_load in H. gb H. cbv zeta in H. gb H.
  apply negb_false_iff, bytes_eqb_iff in G0. rewrite tag_ok in G0.
  destruct (a_data (w k)) as [| | l] eqn:E; cbn [raw_of] in *; try discriminate G0.
  unfold idl_read_unchecked in H. destruct (Nat.ltb_spec (length l) 44) as [| L44]; [discriminate |]. cbv zeta in H.
  destruct (Z.ltb_spec (Z.of_nat (length l) - 44) (from_le (slice 40 4 l))) as [| Ln]; [discriminate |].
  assert (Ha : a = mk_idl (from_le (slice 8 32 l)) (firstn (Z.to_nat (from_le (slice 40 4 l))) (skipn 44 l))) by congruence.
  clear H. subst a. cbn [idl_authority idl_data].
  set (n := from_le (slice 40 4 l)) in *. unfold slice in *.
  assert (l1 : length (firstn 32 (skipn 8 l)) = 32%nat) by (rewrite firstn_length, skipn_length; lia).
  assert (l2 : length (firstn 4 (skipn 40 l)) = 4%nat) by (rewrite firstn_length, skipn_length; lia).
  assert (F : forall m j, Forall is_u8 (firstn m (skipn j l))).
  { intros m j. pose proof U as U'. rewrite <- (firstn_skipn j l) in U'. apply Forall_app in U'. destruct U' as [_ U'].
    rewrite <- (firstn_skipn m (skipn j l)) in U'. apply Forall_app in U'. apply U'. }
  pose proof (from_le_bounds _ (F 32%nat 8%nat)) as B1. pose proof (from_le_bounds _ (F 4%nat 40%nat)) as B2.
  rewrite l1 in B1. rewrite l2 in B2. fold n in B2. change (256 ^ Z.of_nat 32) with (2 ^ 256) in B1. change (256 ^ Z.of_nat 4) with (2 ^ 32) in B2.
  assert (l3 : length (firstn (Z.to_nat n) (skipn 44 l)) = Z.to_nat n) by (rewrite firstn_length, skipn_length; lia).
  split; [exact B1 |]. split; [rewrite l3; lia |]. split; [exact O |].
  exists (skipn (Z.to_nat n) (skipn 44 l)). rewrite E. f_equal. change ([24; 70; 98; 191; 58; 144; 123; 158]) with TAG. rewrite <- G0, l3, Z2Nat.id by lia.
  unfold n. rewrite !to_le_from_le by auto. rewrite firstn_skipn.
  transitivity (firstn 8 l ++ skipn 8 l); [symmetry; apply firstn_skipn |]. f_equal.
  transitivity (firstn 32 (skipn 8 l) ++ skipn 32 (skipn 8 l)); [symmetry; apply firstn_skipn |]. f_equal.
  rewrite skipn_add. change (32 + 8)%nat with 40%nat.
  transitivity (firstn 4 (skipn 40 l) ++ skipn 4 (skipn 40 l)); [symmetry; apply firstn_skipn |]. f_equal.
  rewrite skipn_add. reflexivity.
Qed.

(** ** What each of them does *)
Lemma load_of w k a : world_wf w -> idl_load w k = Ok a -> exists au data, a = mk_idl au data /\ described w k au data.
Proof. intros W H. exists (idl_authority a), (idl_data a). split; [now destruct a | now apply load_described]. Qed.

Lemma write_effect ie signers writable w k au rest d w' : world_wf w ->
  idl_exec ie signers writable (k :: au :: rest) w (IdlWrite d) = Ok w' ->
  exists data, described w k au data /\ In au signers /\ described w' k au (data ++ d) /\ forall k', k' <> k -> w' k' = w k'.
Proof.
  intros W H. cbn [idl_exec] in H. apply rbind_ok in H. destruct H as (a & La & H). apply load_of in La; [| exact W].
  destruct La as (au' & data & -> & D). cbn [idl_authority idl_data] in H. gb H. gb H. apply negb_false_iff, Z.eqb_eq in G0. subst au'.
  gb H. apply signed_inv in G0. apply store_described in H; [| exact (proj1 D)]. exists data. intuition.
Qed.
Lemma set_authority_effect ie signers writable w k au rest n w' : world_wf w -> is_pubkey n ->
  idl_exec ie signers writable (k :: au :: rest) w (IdlSetAuthority n) = Ok w' ->
  exists data, described w k au data /\ In au signers /\ described w' k n data /\ forall k', k' <> k -> w' k' = w k'.
Proof.
  intros W Hn H. cbn [idl_exec] in H. apply rbind_ok in H. destruct H as (a & La & H). apply load_of in La; [| exact W].
  destruct La as (au' & data & -> & D). cbn [idl_authority idl_data] in H. gb H. gb H. apply negb_false_iff, Z.eqb_eq in G0. subst au'.
  gb H. apply signed_inv in G0. apply store_described in H; [| exact Hn]. exists data. intuition.
Qed.
Lemma set_buffer_effect ie signers writable w b k au rest w' : world_wf w -> b <> k ->
  idl_exec ie signers writable (b :: k :: au :: rest) w IdlSetBuffer = Ok w' ->
  exists data old, described w b au data /\ described w k au old /\ In au signers /\
    described w' b au data /\ described w' k au data /\ forall k', k' <> b -> k' <> k -> w' k' = w k'.
Proof.
  intros W N H. cbn [idl_exec] in H. apply rbind_ok in H. destruct H as (c & Lc & H). apply load_of in Lc; [| exact W].
  destruct Lc as (au1 & data & -> & D1). apply rbind_ok in H. destruct H as (a & La & H). apply load_of in La; [| exact W].
  destruct La as (au2 & old & -> & D2). cbn [idl_authority idl_data] in H. gb H.
  gb H. apply negb_false_iff, Z.eqb_eq in G0. gb H. apply negb_false_iff, Z.eqb_eq in G1. subst au1 au2.
  gb H. apply signed_inv in G0. apply rbind_ok in H. destruct H as (w1 & H1 & H).
  apply store_described in H1; [| exact (proj1 D2)]. destruct H1 as (E1 & F1).
  apply store_described in H; [| exact (proj1 D2)]. destruct H as (E2 & F2). cbn [idl_authority idl_data] in *.
  exists data, old. split; [exact D1 |]. split; [exact D2 |]. split; [apply G0 |]. split; [| split; [exact E2 |]].
  - unfold described in E1 |- *. rewrite (F2 b N). exact E1.
  - intros k' Nb Nk. rewrite F2 by exact Nk. now apply F1.
Qed.
Lemma create_buffer_effect ie signers writable w b au rest w' : is_pubkey au ->
  idl_exec ie signers writable (b :: au :: rest) w IdlCreateBuffer = Ok w' ->
  a_owner (w b) = PROGRAM_ID /\ In au signers /\ (exists data, described w' b au data) /\ forall k', k' <> b -> w' k' = w k'.
Proof.
  intros Ha H. cbn [idl_exec] in H. destruct rest as [| rent rest]; [discriminate |].
  gb H. gb H. gb H. apply negb_false_iff, Z.eqb_eq in G1. destruct (idl_read_unchecked _) as [a |]; [| discriminate].
  gb H. gb H. apply signed_inv in G3. apply store_described in H; [| exact Ha]. destruct H as (E & F). split; [exact G1 |]. split; [apply G3 |].
  split; [eexists; exact E | exact F].
Qed.

Lemma zeros_le n : from_le (repeat 0 n) = 0.
Proof. induction n as [| n IH]; cbn [repeat from_le]; [reflexivity | rewrite IH; reflexivity]. Qed.
Lemma zeros_firstn m : forall n, (m <= n)%nat -> firstn m (repeat 0 n) = repeat 0 m.
Proof. induction m as [| m IH]; intros n L; [reflexivity |]. destruct n as [| n]; [lia |]. cbn [firstn repeat]. f_equal. apply IH. lia. Qed.
Lemma zeros_skipn m : forall n, skipn m (repeat 0 n) = repeat 0 (n - m).
Proof. induction m as [| m IH]; intros n; [now rewrite Nat.sub_0_r |]. destruct n as [| n]; [reflexivity |]. cbn [repeat]. apply IH. Qed.
Lemma zeros_read n : (44 <= n)%nat -> idl_read_unchecked (repeat 0 n) = Some (mk_idl 0 []).
Proof.
  intros L. unfold idl_read_unchecked, slice. rewrite repeat_length. destruct (Nat.ltb_spec n 44); [lia |].
  rewrite !zeros_skipn, !zeros_firstn by lia. rewrite !zeros_le. cbv zeta.
  destruct (Z.ltb_spec (Z.of_nat n - 44) 0); [lia | reflexivity].
Qed.

(** Anyone can create the description, once. *)
Lemma create_works ie signers writable w user n : is_pubkey user -> 0 <= n <= 10196 ->
  w (idl_address ie) = empty_account -> In user signers -> In (idl_address ie) writable ->
  exists w', idl_exec ie signers writable [user; idl_address ie; idl_base ie; SYSTEM_PROGRAM_ID; PROGRAM_ID] w (IdlCreate n) = Ok w' /\
    described w' (idl_address ie) user [] /\ forall k, k <> idl_address ie -> w' k = w k.
Proof.
  intros Hu Hn He Hs Hw. cbn [idl_exec]. rewrite (proj2 (mem_in _ _) Hs), (proj2 (mem_in _ _) Hw).
  rewrite !Z.eqb_refl. cbn [negb guard rbind]. rewrite andb_false_r. cbn [guard rbind].
  rewrite (proj2 (mem_in (idl_address ie) [user; idl_address ie; idl_base ie; SYSTEM_PROGRAM_ID])) by (cbn [In]; auto).
  rewrite (proj2 (mem_in (idl_base ie) [user; idl_address ie; idl_base ie; SYSTEM_PROGRAM_ID])) by (cbn [In]; auto).
  cbn [andb negb guard rbind]. rewrite Z.mod_small by lia.
  replace (MAX_GROWTH <? 8 + 32 + 4 + n) with false by (symmetry; apply Z.ltb_ge; unfold MAX_GROWTH; lia).
  cbn [guard rbind]. rewrite He. unfold empty_account. cbn [a_owner a_data]. rewrite Z.eqb_refl. cbn [negb guard rbind].
  set (w1 := upd _ _ _).
  assert (O1 : a_owner (w1 (idl_address ie)) = PROGRAM_ID) by (unfold w1; now rewrite upd_same).
  assert (R1 : raw_of (a_data (w1 (idl_address ie))) = repeat 0 (Z.to_nat (8 + 32 + 4 + n))) by (unfold w1; now rewrite upd_same).
  rewrite R1, zeros_read by lia. cbn [idl_data].
  assert (St : exists w', idl_store w1 (idl_address ie) (mk_idl user []) = Ok w').
  { unfold idl_store. cbn [idl_data length]. change (u32_max <? Z.of_nat 0) with false. cbn [guard rbind].
    rewrite R1, repeat_length, pack_length. cbn [idl_data length].
    destruct (Nat.ltb_spec (Z.to_nat (8 + 32 + 4 + n)) (44 + 0)); [lia |]. cbn [guard rbind]. rewrite O1, Z.eqb_refl. cbn [negb guard rbind].
    eexists. reflexivity. }
  destruct St as (w' & St). exists w'. split; [exact St |]. apply store_described in St; [| exact Hu]. destruct St as (D & F).
  split; [exact D |]. intros k Nk. rewrite (F k Nk). unfold w1. now apply upd_other.
Qed.

(** ** Who can change one *)
Lemma authority_only e ie w t w' k au data : env_ok e -> world_wf w -> Forall is_u8 (tx_data t) -> Forall is_pubkey (tx_accounts t) ->
  idl_checked ie = true -> idl_env_ok ie (tx_signers t) w -> described w k au data -> full_entry e ie w t = Ok w' ->
  w' k = w k \/ In au (tx_signers t) \/ In k (tx_signers t) /\ exists s, pool_at w' k s.
Proof.
  intros He W Hu Hk Hck Ho D H. unfold full_entry in H. destruct (Nat.ltb _ _); [discriminate |]. pose proof D as D'.
  apply described_load in D'. destruct (bytes_eqb _ _).
  - apply rbind_ok in H. destruct H as (i & Di & H).
    destruct (idl_touches _ _ _ _ _ _ _ Hck Ho H k) as [E | E1 E2 E3 E4 | E1 E2 E3 E4 E5 | a E1 E2 E3 E4].
    + now left.
    + destruct D as (_ & _ & O & _). rewrite E2 in O. discriminate O.
    + destruct D as (_ & _ & _ & rest & E). rewrite E in E3. cbn [raw_of app firstn from_le] in E3. lia.
    + right. left. rewrite D' in E1. injection E1 as <-. exact E2.
  - apply entry_exact in H; [| exact Hu]. destruct H as (i & rest & _ & A & _ & H). rewrite A in Hk.
    destruct D as (_ & _ & O & _). destruct (creates_dec i) as [C | C].
    + pose proof (create_effect _ _ _ _ _ He W Hk C H) as Eff. cbv zeta in Eff.
      destruct Eff as (f & c & bump & ta & tb & tf & td & pm & _ & _ & _ & Sg & _ & _ & _ & _ & _ & _ & Htd & Hpm & Eff).
      destruct Eff as (_ & _ & _ & _ & _ & _ & _ & _ & _ & _ & _ & _ & _ & _ & _ & _ & _ & _ & Hp & _ & _ & _ & Fr & _).
      destruct (Z.eq_dec k (nth 0 (instr_accounts i) 0)) as [-> | Nk]; [right; right; split; [exact Sg | eexists; exact Hp] |].
      left. apply Fr. cbn [In]. intros [E | [E | [E | []]]]; [congruence | |].
      * destruct Hpm as (Om & _). rewrite E, O in Om. discriminate Om.
      * destruct Htd as (Om & _). rewrite E, O in Om. discriminate Om.
    + left. apply (trade_keeps_pools _ _ _ _ _ W H C). rewrite O. discriminate.
Qed.

(** ** Pools *)
Lemma idl_pools ie signers writable accounts w i w' k : world_wf w -> idl_checked ie = true -> idl_env_ok ie signers w ->
  idl_exec ie signers writable accounts w i = Ok w' ->
  a_owner (w k) = TOKEN_PROGRAM_ID \/ (exists s, pool_at w k s) -> w' k = w k.
Proof.
  intros W Hck Ho H Hk. destruct (idl_touches _ _ _ _ _ _ _ Hck Ho H k) as [E | E1 E2 E3 E4 | E1 E2 E3 E4 E5 | a E1 E2 E3 E4]; [exact E | ..]; exfalso.
  - destruct Hk as [Hk | (s & O & _)]; [rewrite E2 in Hk; discriminate Hk | rewrite E2 in O; discriminate O].
  - destruct Hk as [Hk | (s & Hp)]; [rewrite E1 in Hk; discriminate Hk |]. apply pool_versioned in Hp. revert Hp.
    apply zero_not; auto using raw_u8.
  - apply load_not in E1. destruct Hk as [Hk | (s & Hp)]; [rewrite (proj1 E1) in Hk; discriminate Hk |].
    apply pool_versioned in Hp. exact (proj2 E1 Hp).
Qed.

(** ** The account of a pool to be *)
Lemma touched_token ie signers w w' k : touched ie signers w w' k -> a_owner (w k) = TOKEN_PROGRAM_ID -> w' k = w k.
Proof.
  intros [E | E1 E2 E3 E4 | E1 E2 E3 E4 E5 | a E1 E2 E3 E4] O; [exact E | ..]; exfalso.
  - rewrite E2 in O. discriminate O.
  - rewrite E1 in O. discriminate O.
  - apply load_not in E1. rewrite (proj1 E1) in O. discriminate O.
Qed.
Lemma touched_rev ie signers w w' k : touched ie signers w w' k -> a_owner (w' k) = TOKEN_PROGRAM_ID -> w' k = w k.
Proof.
  intros [E | E1 E2 E3 E4 | E1 E2 E3 E4 E5 | a E1 E2 E3 E4] O; [exact E | ..]; exfalso.
  - rewrite (proj1 E4) in O. discriminate O.
  - rewrite (proj1 E5) in O. discriminate O.
  - rewrite (proj1 E4) in O. discriminate O.
Qed.
Lemma touched_vacant ie signers w w' k : touched ie signers w w' k -> a_owner (w k) = PROGRAM_ID -> (forall s, ~ pool_at w k s) ->
  a_owner (w' k) = PROGRAM_ID /\ (forall s, ~ pool_at w' k s) /\ length (raw_of (a_data (w' k))) = length (raw_of (a_data (w k))).
Proof.
  assert (Q : forall k, tagged (w' k) -> a_owner (w' k) = PROGRAM_ID /\ forall s, ~ pool_at w' k s).
  { intros k' T. split; [apply T |]. intros s Hp. apply pool_versioned in Hp. exact (tagged_not _ T Hp). }
  intros [E | E1 E2 E3 E4 | E1 E2 E3 E4 E5 | a E1 E2 E3 E4] O N.
  - split; [congruence |]. split; [| congruence]. intros s Hp. apply (N s). unfold pool_at in *. rewrite <- E. exact Hp.
  - rewrite E2 in O. discriminate O.
  - destruct (Q _ E5). auto.
  - destruct (Q _ E4). auto.
Qed.

Lemma create_survives e ie signers0 writable accounts w i0 w' signers i : env_ok e -> world_wf w -> idl_instr_wf i0 -> Forall is_pubkey accounts ->
  idl_checked ie = true -> idl_env_ok ie signers0 w -> idl_exec ie signers0 writable accounts w i0 = Ok w' -> creates i ->
  (exists w1, exec e signers w i = Ok w1) -> exists w1, exec e signers w' i = Ok w1.
Proof.
  intros He W Hi0 Hk Hck Ho H Hc H1. pose proof (idl_touches _ _ _ _ _ _ _ Hck Ho H) as T.
  apply (create_exact _ _ _ _ He W Hc) in H1. apply create_exact; [exact He | now apply (idl_exec_wf ie signers0 writable accounts w i0) | exact Hc |].
  assert (Tk : forall k t, token_at w k t -> token_at w' k t).
  { intros k t (O & D). pose proof (touched_token _ _ _ _ _ (T k) O) as E. unfold token_at. rewrite E. auto. }
  assert (Mk : forall k t, mint_at w k t -> mint_at w' k t).
  { intros k t (O & D). pose proof (touched_token _ _ _ _ _ (T k) O) as E. unfold mint_at. rewrite E. auto. }
  destruct H1 as (pool & authority & va & vb & mint & fee & dest & rest & f & c & bump & ta & tb & tf & td & pm & w1 &
    C1 & C2 & C3 & C4 & C5 & C6 & C7 & C8 & C9 & C10 & C11 & C12 & C13 & C14 & C15).
  destruct (touched_vacant _ _ _ _ _ (T pool) C6 C7) as (V1 & V2 & V3). rewrite <- V3 in C8.
  assert (CC : exists w2, calls_ok (authority :: signers) w' [CMint mint dest authority (10 ^ 9)] w2).
  { repeat (destruct C15 as [_ C15]). destruct C15 as (w2 & (mt & td' & D1 & D2 & D3 & D4 & D5 & D6 & D7 & D8 & D9 & D10) & _).
    eexists. cbn [calls_ok]. eexists. split; [| reflexivity]. exists mt, td'.
    split; [now apply Mk |]. split; [now apply Tk |]. split; [exact D3 |]. split; [exact D4 |]. split; [exact D5 |]. split; [exact D6 |].
    split; [| split; [exact D8 |]; split; [exact D9 | reflexivity]].
    split; [apply D7 |]. intros (O & l & E & L). apply (proj2 D7). rewrite <- (touched_rev _ _ _ _ _ (T _) O). eauto. }
  destruct CC as (w2 & CC). exists pool, authority, va, vb, mint, fee, dest, rest, f, c, bump, ta, tb, tf, td, pm, w2. intuition.
Qed.
