(** Instructions depend on and change only the accounts they name (C76). *)
From Verif Require Import Ints Tactics Fees SwapCurve Codec Token Processor Api LocalSpec TokenFacts.

Section Local.
Variables (l : list Z) (w1 w2 : world) (g1 g2 : list Z).
Hypothesis signs : forall k, In k l -> mem k g1 = mem k g2.

(** A pair of intermediate ledgers. *)
Definition near (a b : world) : Prop :=
  (forall k, In k l -> a k = b k) /\ (forall k, ~ In k l -> a k = w1 k /\ b k = w2 k).
Definition alike (r1 r2 : result world) : Prop :=
  match r1, r2 with
  | Ok a, Ok b => near a b
  | Err x, Err y => x = y
  | _, _ => False
  end.

Lemma near_upd a b k x : near a b -> In k l -> near (upd a k x) (upd b k x).
Proof.
  intros [A F] K. split; intros j J; unfold upd; destruct (Z.eqb_spec j k) as [-> | N]; try reflexivity; try contradiction.
  - now apply A.
  - now apply F.
Qed.

(** The same check on both sides. *)
Lemma alike_bind {X} (m : result X) f1 f2 : (forall x, alike (f1 x) (f2 x)) ->
  alike (rbind m f1) (rbind m f2).
Proof. intros H. destruct m; cbn [rbind]; [apply H | reflexivity]. Qed.
Lemma alike_world (m1 m2 : result world) f1 f2 : alike m1 m2 ->
  (forall a b, near a b -> alike (f1 a) (f2 b)) -> alike (rbind m1 f1) (rbind m2 f2).
Proof. unfold alike at 1. destruct m1, m2; cbn [rbind]; intros H H'; try contradiction; [now apply H' | exact H]. Qed.
Lemma alike_ok a b : near a b -> alike (Ok a) (Ok b).
Proof. intros H. exact H. Qed.
Lemma alike_err x : alike (Err x) (Err x).
Proof. reflexivity. Qed.
Lemma alike_if (c : bool) x1 x2 y1 y2 : alike x1 x2 -> alike y1 y2 -> alike (if c then x1 else y1) (if c then x2 else y2).
Proof. destruct c; auto. Qed.

Lemma owner_same a b s1 s2 x k : near a b -> (mem k s1 = mem k s2) -> In k l ->
  validate_owner a s1 x k = validate_owner b s2 x k.
Proof. intros N E K. unfold validate_owner. now rewrite (proj1 N k K), E. Qed.
Lemma debit_same a b s1 s2 t k x : near a b -> (mem k s1 = mem k s2) -> In k l ->
  authorize_debit a s1 t k x = authorize_debit b s2 t k x.
Proof.
  intros N E K. unfold authorize_debit.
  rewrite (owner_same a b s1 s2 k k N E K), (owner_same a b s1 s2 (t_owner t) k N E K). reflexivity.
Qed.
Lemma token_same a b k : near a b -> In k l -> get_token a k = get_token b k.
Proof. intros N K. unfold get_token. now rewrite (proj1 N k K). Qed.
Lemma mint_same a b k : near a b -> In k l -> get_mint a k = get_mint b k.
Proof. intros N K. unfold get_mint. now rewrite (proj1 N k K). Qed.

Lemma near_token a b k t : near a b -> In k l -> near (set_token a k t) (set_token b k t).
Proof. intros N K. unfold set_token. rewrite (proj1 N k K). now apply near_upd. Qed.
Lemma near_mint a b k t : near a b -> In k l -> near (set_mint a k t) (set_mint b k t).
Proof. intros N K. unfold set_mint. rewrite (proj1 N k K). now apply near_upd. Qed.

Lemma transfer_alike a b s1 s2 src dst au x : near a b -> (mem au s1 = mem au s2) -> In src l -> In dst l -> In au l ->
  alike (spl_transfer a s1 src dst au x) (spl_transfer b s2 src dst au x).
Proof.
  intros N E Is Id Ia. unfold spl_transfer. rewrite (token_same a b src N Is), (token_same a b dst N Id).
  apply alike_bind; intros s. apply alike_bind; intros d. do 3 (apply alike_bind; intros _).
  rewrite (debit_same a b s1 s2 s au x N E Ia). apply alike_bind; intros s'. apply alike_if; [exact N |].
  apply alike_bind; intros _. apply alike_ok, near_token; [| exact Id]. apply near_token; assumption.
Qed.
Lemma mint_to_alike a b s1 s2 mint dst au x : near a b -> (mem au s1 = mem au s2) -> In mint l -> In dst l -> In au l ->
  alike (spl_mint_to a s1 mint dst au x) (spl_mint_to b s2 mint dst au x).
Proof.
  intros N E Is Id Ia. unfold spl_mint_to. rewrite (mint_same a b mint N Is), (token_same a b dst N Id).
  apply alike_bind; intros d. do 3 (apply alike_bind; intros _). apply alike_bind; intros m.
  replace (match m_authority m with Some k => validate_owner a s1 k au | None => Err EToken end)
    with (match m_authority m with Some k => validate_owner b s2 k au | None => Err EToken end)
    by (destruct (m_authority m); [symmetry; now apply owner_same | reflexivity]).
  do 3 (apply alike_bind; intros _). apply alike_ok, near_mint; [| exact Is]. apply near_token; assumption.
Qed.
Lemma burn_alike a b s1 s2 src mint au x : near a b -> (mem au s1 = mem au s2) -> In src l -> In mint l -> In au l ->
  alike (spl_burn a s1 src mint au x) (spl_burn b s2 src mint au x).
Proof.
  intros N E Is Id Ia. unfold spl_burn. rewrite (mint_same a b mint N Id), (token_same a b src N Is).
  apply alike_bind; intros s. apply alike_bind; intros m. do 4 (apply alike_bind; intros _).
  rewrite (debit_same a b s1 s2 s au x N E Ia). apply alike_bind; intros s'. apply alike_bind; intros _.
  apply alike_ok, near_mint; [| exact Id]. apply near_token; assumption.
Qed.

Lemma cpi_alike e swap bump tp (f1 f2 : list Z -> result world) : (forall k, alike (f1 (k :: g1)) (f2 (k :: g2))) ->
  alike (rbind (cpi_signers e g1 swap bump tp) f1) (rbind (cpi_signers e g2 swap bump tp) f2).
Proof.
  intros H. unfold cpi_signers. destruct (guard _ _); cbn [rbind]; [| reflexivity].
  destruct (create_pda e swap bump); cbn [rbind]; [apply H | reflexivity].
Qed.
Lemma mem_cons k j s1 s2 : mem k s1 = mem k s2 -> mem k (j :: s1) = mem k (j :: s2).
Proof. unfold mem. cbn [existsb]. now intros ->. Qed.

Lemma token_transfer_alike e a b swap tp src dst au bump x : near a b -> In src l -> In dst l -> In au l ->
  alike (token_transfer e g1 a swap tp src dst au bump x) (token_transfer e g2 b swap tp src dst au bump x).
Proof. intros N Is Id Ia. apply cpi_alike. intros k. apply transfer_alike; auto using mem_cons. Qed.
Lemma token_mint_alike e a b swap tp mint dst au bump x : near a b -> In mint l -> In dst l -> In au l ->
  alike (token_mint_to e g1 a swap tp mint dst au bump x) (token_mint_to e g2 b swap tp mint dst au bump x).
Proof. intros N Is Id Ia. apply cpi_alike. intros k. apply mint_to_alike; auto using mem_cons. Qed.
Lemma token_burn_alike e a b swap tp src mint au bump x : near a b -> In src l -> In mint l -> In au l ->
  alike (token_burn e g1 a swap tp src mint au bump x) (token_burn e g2 b swap tp src mint au bump x).
Proof. intros N Is Id Ia. apply cpi_alike. intros k. apply burn_alike; auto using mem_cons. Qed.

Lemma unpack_token_same a b k p : near a b -> In k l -> unpack_token_account a k p = unpack_token_account b k p.
Proof. intros N K. unfold unpack_token_account. now rewrite (proj1 N k K). Qed.
Lemma unpack_mint_same a b k p : near a b -> In k l -> unpack_mint a k p = unpack_mint b k p.
Proof. intros N K. unfold unpack_mint. now rewrite (proj1 N k K). Qed.
Lemma check_same e a b s swap au ta tb pm tp ua ub f : near a b -> In swap l ->
  check_accounts e a s swap au ta tb pm tp ua ub f = check_accounts e b s swap au ta tb pm tp ua ub f.
Proof. intros N K. unfold check_accounts. now rewrite (proj1 N swap K). Qed.
End Local.

Ltac inl := solve [cbn [In]; auto 15].
Ltac same N := repeat first
  [ rewrite (unpack_token_same _ _ _ _ _ _ _ N) by inl
  | rewrite (unpack_mint_same _ _ _ _ _ _ _ N) by inl
  | rewrite (check_same _ _ _ _ _ _ _ _ _ _ _ _ _ _ _ _ N) by inl ].

Section Process.
Variables (e : env) (w1 w2 : world) (g1 g2 : list Z).

Ltac go := repeat first
  [ apply alike_err
  | apply token_transfer_alike; [assumption | assumption | inl ..]
  | apply token_mint_alike; [assumption | assumption | inl ..]
  | apply token_burn_alike; [assumption | assumption | inl ..]
  | apply alike_ok; assumption
  | apply alike_if
  | match goal with
    | |- alike _ _ _ (let (_, _) := ?p in _) _ => destruct p
    | |- alike _ _ _ (match ?d with AtoB => _ | BtoA => _ end) _ => destruct d
    end
  | apply alike_bind; intros ?
  | eapply alike_world; [| intros ? ? ?] ].

Lemma init_local f c l : (forall k, In k l -> mem k g1 = mem k g2) -> near l w1 w2 w1 w2 ->
  alike l w1 w2 (process_initialize e g1 w1 f c l) (process_initialize e g2 w2 f c l).
Proof.
  intros Sg N. do 8 (destruct l as [| ? l]; [reflexivity |]). unfold process_initialize.
  match goal with |- alike (?s :: _) _ _ _ _ => rewrite (proj1 N s) by inl end. same N. go.
  all: match goal with H : near (?s :: _) _ _ ?a ?b |- alike _ _ _ _ _ => rewrite (proj1 H s) by inl end.
  all: go. apply alike_ok, near_upd; [assumption | inl].
Qed.

Lemma swap_local ain mout l : (length l <= 10)%nat -> (forall k, In k l -> mem k g1 = mem k g2) -> near l w1 w2 w1 w2 ->
  alike l w1 w2 (process_swap e g1 w1 ain mout l) (process_swap e g2 w2 ain mout l).
Proof.
  intros L Sg N. do 10 (destruct l as [| ? l]; [reflexivity |]).
  assert (l = []) as -> by (destruct l; [reflexivity | cbn [length] in L; lia]).
  unfold process_swap.
  match goal with |- alike (?s :: _) _ _ _ _ => rewrite (proj1 N s) by inl end. 
  apply alike_bind; intros _. apply alike_bind; intros s. same N. cbv zeta. unfold mint_owner_fee. cbv beta iota. cbn [rbind]. go.
Qed.

Lemma deposit_all_local n ma mb l : (forall k, In k l -> mem k g1 = mem k g2) -> near l w1 w2 w1 w2 ->
  alike l w1 w2 (process_deposit_all e g1 w1 n ma mb l) (process_deposit_all e g2 w2 n ma mb l).
Proof.
  intros Sg N. do 10 (destruct l as [| ? l]; [reflexivity |]). unfold process_deposit_all.
  match goal with |- alike (?s :: _) _ _ _ _ => rewrite (proj1 N s) by inl end. 
  apply alike_bind; intros s. same N. go.
Qed.
Lemma withdraw_all_local n ma mb l : (forall k, In k l -> mem k g1 = mem k g2) -> near l w1 w2 w1 w2 ->
  alike l w1 w2 (process_withdraw_all e g1 w1 n ma mb l) (process_withdraw_all e g2 w2 n ma mb l).
Proof.
  intros Sg N. do 11 (destruct l as [| ? l]; [reflexivity |]). unfold process_withdraw_all.
  match goal with |- alike (?s :: _) _ _ _ _ => rewrite (proj1 N s) by inl end. 
  apply alike_bind; intros s. same N. cbv zeta. go.
Qed.
Lemma deposit_single_local n m l : (forall k, In k l -> mem k g1 = mem k g2) -> near l w1 w2 w1 w2 ->
  alike l w1 w2 (process_deposit_single e g1 w1 n m l) (process_deposit_single e g2 w2 n m l).
Proof.
  intros Sg N. do 9 (destruct l as [| ? l]; [reflexivity |]). unfold process_deposit_single.
  match goal with |- alike (?s :: _) _ _ _ _ => rewrite (proj1 N s) by inl end. 
  apply alike_bind; intros s. same N. go; same N; go.
Qed.
Lemma withdraw_single_local n m l : (forall k, In k l -> mem k g1 = mem k g2) -> near l w1 w2 w1 w2 ->
  alike l w1 w2 (process_withdraw_single e g1 w1 n m l) (process_withdraw_single e g2 w2 n m l).
Proof.
  intros Sg N. do 10 (destruct l as [| ? l]; [reflexivity |]). unfold process_withdraw_single.
  match goal with |- alike (?s :: _) _ _ _ _ => rewrite (proj1 N s) by inl end. 
  apply alike_bind; intros s. same N. go; same N; go.
Qed.
End Process.

Lemma anchor_alike n j g1 g2 accounts l w1 w2 f1 f2 :
  (forall k, In k (firstn n accounts) -> mem k g1 = mem k g2) -> (j < n)%nat -> l = firstn n accounts ->
  ((length (firstn n accounts) <= n)%nat -> alike l w1 w2 (f1 (firstn n accounts)) (f2 (firstn n accounts))) ->
  alike l w1 w2 (rbind (anchor_accounts n j g1 accounts) f1) (rbind (anchor_accounts n j g2 accounts) f2).
Proof.
  intros Sg J -> H. unfold anchor_accounts. destruct (Nat.ltb_spec (length accounts) n) as [L | L]; cbn [guard rbind].
  { reflexivity. }
  assert (In (nth j accounts 0) (firstn n accounts)).
  { rewrite <- (firstn_skipn n accounts) at 1. rewrite app_nth1 by (rewrite firstn_length; lia).
    apply nth_In. rewrite firstn_length. lia. }
  rewrite (Sg _ H0). destruct (guard (negb (mem (nth j accounts 0) g2)) _); cbn [rbind]; [| reflexivity].
  apply H. rewrite firstn_length. lia.
Qed.

Lemma exec_local e g1 g2 w1 w2 i : (forall k, In k (used i) -> w1 k = w2 k) ->
  (forall k, In k (used i) -> In k g1 <-> In k g2) ->
  alike (used i) w1 w2 (exec e g1 w1 i) (exec e g2 w2 i).
Proof.
  intros A Sg0.
  assert (Sg : forall k, In k (used i) -> mem k g1 = mem k g2).
  { intros k K. specialize (Sg0 k K). unfold mem. apply eq_true_iff_eq. rewrite !existsb_exists.
    split; intros (x & X & E); apply Z.eqb_eq in E; subst x; exists k; (split; [apply Sg0; exact X | apply Z.eqb_refl]). }
  assert (N : near (used i) w1 w2 w1 w2) by (split; [exact A | auto]). clear A Sg0.
  unfold exec. apply alike_bind; intros _.
  destruct i; cbv beta iota; unfold used in *; cbn [arity instr_accounts] in *;
    (apply anchor_alike; [exact Sg | lia | reflexivity |]); intros L.
  - now apply init_local.
  - now apply init_local.
  - now apply swap_local.
  - now apply deposit_all_local.
  - now apply withdraw_all_local.
  - now apply deposit_single_local.
  - now apply withdraw_single_local.
Qed.

Lemma exec_same e g1 g2 w1 w2 i : (forall k, In k (used i) -> w1 k = w2 k) ->
  (forall k, In k (used i) -> In k g1 <-> In k g2) ->
  same_result (used i) (exec e g1 w1 i) (exec e g2 w2 i).
Proof.
  intros A S. pose proof (exec_local e g1 g2 w1 w2 i A S) as H. unfold alike in H. unfold same_result.
  destruct (exec e g1 w1 i), (exec e g2 w2 i); try exact H. exact (proj1 H).
Qed.

Lemma exec_frame e g w i w' k : exec e g w i = Ok w' -> ~ In k (used i) -> w' k = w k.
Proof.
  intros H N. pose proof (exec_local e g g w w i (fun _ _ => eq_refl) (fun _ _ => iff_refl _)) as A.
  rewrite H in A. exact (proj1 (proj2 A k N)).
Qed.

Lemma exec_commute e gi gj w i j wi wj : exec e gi w i = Ok wi -> exec e gj w j = Ok wj ->
  (forall k, In k (used i) -> In k (used j) -> wi k = w k /\ wj k = w k) ->
  exists wij wji, exec e gj wi j = Ok wij /\ exec e gi wj i = Ok wji /\ forall k, wij k = wji k.
Proof.
  intros Hi Hj D.
  assert (Aj : forall k, In k (used j) -> w k = wi k).
  { intros k K. destruct (in_dec Z.eq_dec k (used i)) as [I | I].
    - symmetry. apply D; assumption.
    - symmetry. exact (exec_frame _ _ _ _ _ _ Hi I). }
  assert (Ai : forall k, In k (used i) -> w k = wj k).
  { intros k K. destruct (in_dec Z.eq_dec k (used j)) as [I | I].
    - symmetry. apply D; assumption.
    - symmetry. exact (exec_frame _ _ _ _ _ _ Hj I). }
  pose proof (exec_local e gj gj w wi j Aj (fun _ _ => iff_refl _)) as Lj. rewrite Hj in Lj.
  pose proof (exec_local e gi gi w wj i Ai (fun _ _ => iff_refl _)) as Li. rewrite Hi in Li.
  unfold alike in Li, Lj. destruct (exec e gj wi j) as [wij |]; [| contradiction].
  destruct (exec e gi wj i) as [wji |]; [| contradiction].
  exists wij, wji. split; [reflexivity |]. split; [reflexivity |].
  destruct Li as [Li Fi], Lj as [Lj Fj]. intros k.
  destruct (in_dec Z.eq_dec k (used i)) as [I | I], (in_dec Z.eq_dec k (used j)) as [J | J].
  - rewrite <- (Lj k J), <- (Li k I). destruct (D k I J) as [-> ->]. reflexivity.
  - rewrite (proj2 (Fj k J)), (Li k I). reflexivity.
  - rewrite (proj2 (Fi k I)), (Lj k J). reflexivity.
  - rewrite (proj2 (Fj k J)), (proj2 (Fi k I)). rewrite (exec_frame _ _ _ _ _ _ Hi I).
    symmetry. exact (exec_frame _ _ _ _ _ _ Hj J).
Qed.
