(** Facts about the texts of errors. *)
From Coq Require Import String.
From Verif Require Import Ints Tactics ErrorCodes ErrorText.
Open Scope string_scope.

Definition all_errors : list swap_error :=
  flat_map (fun n => match error_from_code (Z.of_nat n) with Some e => [e] | None => [] end) (seq 0 28).
Lemma all_errors_all e : In e all_errors.
Proof. destruct e; vm_compute; tauto. Qed.
Lemma table_spec (f : swap_error -> swap_error -> bool) :
  forallb (fun a => forallb (f a) all_errors) all_errors = true -> forall a b, f a b = true.
Proof.
  intros H a b. rewrite forallb_forall in H. specialize (H a (all_errors_all a)). rewrite forallb_forall in H.
  exact (H b (all_errors_all b)).
Qed.
Lemma code_inj a b : error_code a = error_code b -> a = b.
Proof. destruct a, b; try reflexivity; discriminate. Qed.
Lemma text_inj a b : error_text a = error_text b -> a = b.
Proof.
  pose proof (table_spec (fun a b => negb (String.eqb (error_text a) (error_text b)) || (error_code a =? error_code b)%Z)%bool
    ltac:(vm_compute; reflexivity) a b) as H. cbv beta in H. intros E. apply String.eqb_eq in E. rewrite E in H.
  apply code_inj, Z.eqb_eq. exact H.
Qed.
Lemma log_inj a b : error_log a = error_log b -> a = b.
Proof.
  pose proof (table_spec (fun a b => negb (String.eqb (error_log a) (error_log b)) || (error_code a =? error_code b)%Z)%bool
    ltac:(vm_compute; reflexivity) a b) as H. cbv beta in H. intros E. apply String.eqb_eq in E. rewrite E in H.
  apply code_inj, Z.eqb_eq. exact H.
Qed.
Lemma log_agrees e : error_log e = "Error: " ++ error_text e <->
  ~ In e [InvalidOwner; CalculationFailure; InvalidInstruction; FeeCalculationFailure; ConversionFailure].
Proof.
  destruct e; (split; [intros H K; vm_compute in K, H; try discriminate H; decompose [or] K; try discriminate; contradiction
    | intros H; try reflexivity; destruct H; vm_compute; tauto]).
Qed.
