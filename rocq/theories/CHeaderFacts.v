(** Calls and readers that use the C bindings (C108). *)
From Verif Require Import Ints Tactics Codec CodecFacts Token Processor Api Entry EntryFacts History HistoryFacts Spec LedgerSpec
  WireSpec Client ClientSpec ClientFacts LedgerExamples HistoryExamples CHeader.

Lemma c_never_understood i pad spare accounts : decode accounts (c_bytes i pad spare) = Err ERuntime.
Proof.
  assert (T : exists b l, c_bytes i pad spare = b :: l /\ 0 <= b <= 3).
  { unfold c_bytes, c_tag. destruct i; cbn [to_le app]; eexists; eexists; (split; [reflexivity |]); vm_compute; split; congruence. }
  destruct T as (b & l & E & B). rewrite E. unfold decode.
  destruct (Nat.ltb_spec (length (b :: l)) 8); [reflexivity |].
  destruct (find _ entry_points) as [ep |] eqn:F; [| reflexivity].
  destruct (find_nth _ _ no_entry _ F) as (n & Ln & <- & P). apply bytes_eqb_iff in P. exfalso.
  change (length entry_points) with 7%nat in Ln.
  assert (Q : ep_tag (nth n entry_points no_entry) = nth n tags []).
  { rewrite <- tags_ok. change [] with (ep_tag no_entry). symmetry. apply map_nth. }
  rewrite Q in P. clear Q F. cbn [firstn] in P.
  do 7 (destruct n as [| n]; [cbn [nth tags] in P; injection P; intros; lia |]). lia.
Qed.

Lemma c_never_accepted i pad spare e w signers writable accounts :
  entry e w (mk_transaction signers writable accounts (c_bytes i pad spare)) = Err ERuntime.
Proof. unfold entry. cbn [tx_accounts tx_data]. now rewrite c_never_understood. Qed.

Lemma c_other_bytes l s : Forall is_u8 l -> swap_unpack l = Ok s -> c_read l = COther.
Proof.
  intros U H. destruct l as [| v l]; [discriminate |]. cbn [swap_unpack] in H.
  destruct (Z.eqb_spec v 1) as [-> |]; [| discriminate]. destruct (Nat.eqb_spec (length l) SWAP_V1_LEN) as [L |]; [| discriminate].
  destruct (unpack_v1_from l) as [s' |] eqn:E; [| discriminate]. cbn [rbind] in H.
  destruct (st_is_initialized s') eqn:I; [| discriminate].
  do 3 (destruct l as [| ? l]; [discriminate L |]).
  assert (z = 1).
  { unfold unpack_v1_from in E. cbn [nth] in E. destruct z as [| [] |]; try discriminate E; [| reflexivity].
    cbn [rbind] in E. destruct (unpack_curve _); [| discriminate E]. cbn [rbind] in E. injection E as <-. discriminate I. }
  subst z. unfold c_read. cbn [firstn from_le].
  repeat match goal with H : Forall _ (_ :: _) |- _ => apply Forall_cons_iff in H; destruct H as [? H] end.
  unfold is_u8 in *.
  match goal with |- match ?x with _ => _ end = _ => assert (257 <= x) by lia; destruct x as [| p | p]; [lia | | lia] end.
  destruct p; [reflexivity | reflexivity | lia].
Qed.

Lemma c_never_read e w k s : env_ok e -> reachable e w -> pool_at w k s -> c_read (raw_of (a_data (w k))) = COther.
Proof.
  intros He R [_ P]. destruct (reachable_inv e w He R) as [W _]. specialize (W k). unfold account_wf in W.
  destruct (a_data (w k)) as [t | m | l]; [discriminate P | discriminate P |]. exact (c_other_bytes l s W P).
Qed.

Lemma c_refuted : exists e w k s t w', env_ok e /\ reachable e w /\ pool_at w k s /\
  (forall info, c_read (raw_of (a_data (w k))) <> CInit info) /\
  entry e w t = Ok w' /\
  forall i pad spare, entry e w (mk_transaction (tx_signers t) (tx_writable t) (tx_accounts t) (c_bytes i pad spare)) = Err ERuntime.
Proof.
  set (i := Swap [100; auth 100; 901; 111; 101; 102; 112; 203; 103; TOKEN_PROGRAM_ID] 600 2).
  set (t := mk_transaction [901] (instr_accounts i) (instr_accounts i) (wire i)).
  assert (S : exists w', entry ex_env ex_w2 t = Ok w').
  { destruct (entry ex_env ex_w2 t) as [w' |] eqn:E; [now exists w' |].
    assert (F : match entry ex_env ex_w2 t with Ok _ => true | Err _ => false end = true) by (vm_compute; reflexivity).
    rewrite E in F. discriminate. }
  destruct S as (w' & S). exists ex_env, ex_w2, 100, ex_pool1, t, w'.
  assert (P : pool_at ex_w2 100 ex_pool1) by (split; vm_compute; reflexivity).
  split; [exact ex_env_ok |]. split; [exact ex_reachable |]. split; [exact P |].
  split; [intros info; rewrite (c_never_read _ _ _ _ ex_env_ok ex_reachable P); discriminate |].
  split; [exact S |]. intros. apply c_never_accepted.
Qed.
