(** Inversion lemmas and tactics for the two monads. *)
From Coq Require Export Lia.
From Verif Require Export Ints.

Lemma obind_val A B (m : outcome A) (k : A -> outcome B) b :
  obind m k = Val b <-> exists a, m = Val a /\ k a = Val b.
Proof.
  destruct m; cbn; split; intros H; try (exists a; tauto); try discriminate;
    destruct H as [x [Hx Hk]]; congruence.
Qed.

Lemma rbind_ok A B (m : result A) (k : A -> result B) b :
  rbind m k = Ok b <-> exists a, m = Ok a /\ k a = Ok b.
Proof.
  destruct m; cbn; split; intros H; try (exists a; tauto); try discriminate;
    destruct H as [x [Hx Hk]]; congruence.
Qed.

Lemma guard_ok c e u : guard c e = Ok u <-> c = false.
Proof. destruct c, u; cbn; split; congruence. Qed.

Lemma ok_or_ok A (m : outcome A) e a : ok_or m e = Ok a <-> m = Val a.
Proof. destruct m; cbn; split; congruence. Qed.

Lemma add_in_val m a b c : add_in m a b = Val c <-> c = a + b /\ a + b <= m.
Proof. unfold add_in. destruct (Z.leb_spec (a + b) m); split; intros H'; try discriminate;
  [inversion H'; auto | destruct H'; congruence | lia]. Qed.
Lemma mul_in_val m a b c : mul_in m a b = Val c <-> c = a * b /\ a * b <= m.
Proof. unfold mul_in. destruct (Z.leb_spec (a * b) m); split; intros H'; try discriminate;
  [inversion H'; auto | destruct H'; congruence | lia]. Qed.
Lemma csub_val a b c : csub a b = Val c <-> c = a - b /\ b <= a.
Proof. unfold csub. destruct (Z.leb_spec b a); split; intros H'; try discriminate;
  [inversion H'; auto | destruct H'; congruence | lia]. Qed.
Lemma cdiv_val a b c : cdiv a b = Val c <-> c = a / b /\ b <> 0.
Proof. unfold cdiv. destruct (Z.eqb_spec b 0); split; intros H'; try discriminate;
  [lia | inversion H'; auto | destruct H'; congruence]. Qed.
Lemma crem_val a b c : crem a b = Val c <-> c = a mod b /\ b <> 0.
Proof. unfold crem. destruct (Z.eqb_spec b 0); split; intros H'; try discriminate;
  [lia | inversion H'; auto | destruct H'; congruence]. Qed.
Lemma as_u64_val x y : as_u64 x = Val y <-> y = x /\ x <= u64_max.
Proof. unfold as_u64. destruct (Z.leb_spec x u64_max); split; intros H';
  try discriminate H'; try (injection H' as H'); intuition (try congruence; lia). Qed.
Lemma as_u128_val x y : as_u128 x = Val y <-> y = x /\ x <= u128_max.
Proof. unfold as_u128. destruct (Z.leb_spec x u128_max); split; intros H';
  try discriminate H'; try (injection H' as H'); intuition (try congruence; lia). Qed.
Lemma map_zero_to_none_val x y : map_zero_to_none x = Val y <-> y = x /\ x <> 0.
Proof. unfold map_zero_to_none. destruct (Z.eqb_spec x 0); split; intros H';
  try discriminate H'; try (injection H' as H'); intuition (try congruence; lia). Qed.

Lemma add_in_eq m a b : a + b <= m -> add_in m a b = Val (a + b).
Proof. intros. apply add_in_val. auto. Qed.
Lemma mul_in_eq m a b : a * b <= m -> mul_in m a b = Val (a * b).
Proof. intros. apply mul_in_val. auto. Qed.
Lemma csub_eq a b : b <= a -> csub a b = Val (a - b).
Proof. intros. apply csub_val. auto. Qed.
Lemma cdiv_eq a b : b <> 0 -> cdiv a b = Val (a / b).
Proof. intros. apply cdiv_val. auto. Qed.
Lemma crem_eq a b : b <> 0 -> crem a b = Val (a mod b).
Proof. intros. apply crem_val. auto. Qed.

(** No primitive operation panics except the explicit ones. *)
Lemma obind_panic A B (m : outcome A) (k : A -> outcome B) :
  obind m k = Panic <-> m = Panic \/ exists a, m = Val a /\ k a = Panic.
Proof.
  destruct m; cbn; split; intros H; auto; try discriminate H;
    try (right; exists a; tauto);
    destruct H as [H | [x [Hx Hk]]]; congruence.
Qed.
Lemma add_in_no_panic m a b : add_in m a b <> Panic.
Proof. unfold add_in. destruct (_ <=? _); discriminate. Qed.
Lemma mul_in_no_panic m a b : mul_in m a b <> Panic.
Proof. unfold mul_in. destruct (_ <=? _); discriminate. Qed.
Lemma csub_no_panic a b : csub a b <> Panic.
Proof. unfold csub. destruct (_ <=? _); discriminate. Qed.
Lemma cdiv_no_panic a b : cdiv a b <> Panic.
Proof. unfold cdiv. destruct (_ =? _); discriminate. Qed.
Lemma crem_no_panic a b : crem a b <> Panic.
Proof. unfold crem. destruct (_ =? _); discriminate. Qed.
Lemma map_zero_no_panic x : map_zero_to_none x <> Panic.
Proof. unfold map_zero_to_none. destruct (_ =? _); discriminate. Qed.

(** One inversion step on a hypothesis of the shape [program = Val _]. *)
Ltac inv1 :=
  match goal with
  | H : Val _ = Val _ |- _ => injection H as H; subst
  | H : Ok _ = Ok _ |- _ => injection H as H; subst
  | H : (_, _) = (_, _) |- _ => injection H as H; subst
  | H : Val _ = Non |- _ => discriminate H
  | H : Non = Val _ |- _ => discriminate H
  | H : Panic = Val _ |- _ => discriminate H
  | H : Val _ = Panic |- _ => discriminate H
  | H : Non = Panic |- _ => discriminate H
  | H : Panic = Non |- _ => discriminate H
  | H : Err _ = Ok _ |- _ => discriminate H
  | H : obind _ _ = Val _ |- _ =>
      apply obind_val in H;
      let a := fresh "v" in let H1 := fresh "Hm" in let H2 := fresh "Hk" in
      destruct H as [a [H1 H2]]
  | H : rbind _ _ = Ok _ |- _ =>
      apply rbind_ok in H;
      let a := fresh "v" in let H1 := fresh "Hm" in let H2 := fresh "Hk" in
      destruct H as [a [H1 H2]]
  | H : guard _ _ = Ok _ |- _ => apply guard_ok in H
  | H : ok_or _ _ = Ok _ |- _ => apply ok_or_ok in H
  | H : add_in _ _ _ = Val _ |- _ => apply add_in_val in H; destruct H
  | H : mul_in _ _ _ = Val _ |- _ => apply mul_in_val in H; destruct H
  | H : csub _ _ = Val _ |- _ => apply csub_val in H; destruct H
  | H : cdiv _ _ = Val _ |- _ => apply cdiv_val in H; destruct H
  | H : crem _ _ = Val _ |- _ => apply crem_val in H; destruct H
  | H : as_u64 _ = Val _ |- _ => apply as_u64_val in H; destruct H
  | H : as_u128 _ = Val _ |- _ => apply as_u128_val in H; destruct H
  | H : map_zero_to_none _ = Val _ |- _ => apply map_zero_to_none_val in H; destruct H
  | H : (let (_, _) := ?p in _) = _ |- _ => destruct p
  | H : (match ?d with AtoB => _ | BtoA => _ end) = _ |- _ => destruct d
  end.
Ltac inv := repeat (inv1; cbv beta iota in * ); subst.
