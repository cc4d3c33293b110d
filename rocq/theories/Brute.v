(** Facts about small ranges, by computation. *)
From Verif Require Import Base BaseFacts.
Lemma brute n f : forallb f (zseq 0 n) = true -> forall v, 0 <= v < Z.of_nat n -> f v = true.
Proof. intros H v Hv. rewrite forallb_forall in H. apply H. apply zseq_in. lia. Qed.
Lemma brute2 n m f : forallb (fun a => forallb (f a) (zseq 0 m)) (zseq 0 n) = true ->
  forall a b, 0 <= a < Z.of_nat n -> 0 <= b < Z.of_nat m -> f a b = true.
Proof.
  intros H a b Ha Hb. rewrite forallb_forall in H. specialize (H a ltac:(apply zseq_in; lia)).
  rewrite forallb_forall in H. apply H. apply zseq_in. lia.
Qed.
