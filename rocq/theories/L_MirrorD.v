(** The numbers of C82_mirror_refuted. *)

From Coq Require Import ZArith List Bool Lia.
From Verif Require Import Base M_Bytes M_Scan M_Reduce M_FSum M_FMul M_TimeLoop M_HeatD Spec_Tec Spec_FSum Spec_FMul L_ScanF L_Near L_Nearest L_FSum L_FMul.
Open Scope Z_scope.

Ltac exactly a b c := apply (dmul_exact _ _ _ a b c); try reflexivity; try discriminate; split; (discriminate || reflexivity).

Lemma two : of_whole 2 = 4611686018427387904.
Proof. reflexivity. Qed.
Lemma twice_in : dmul 4611686018427387904 4445897257144811520 = 4450400856772182016.
Proof. exactly (2 * 2 ^ 1074) (5348024557502464 * 2 ^ 986) (5348024557502464 * 2 ^ 987). Qed.
Lemma left_sum : dadd (dsub 4677567105896284160 4450400856772182016) 4445897257144811520 = 4677567105896284157.
Proof. reflexivity. Qed.
Lemma right_sum : dadd (dsub 4445897257144811520 4450400856772182016) 4677567105896284160 = 4677567105896284158.
Proof. reflexivity. Qed.
Lemma left_a : dmul 4611686018427387904 4677567105896284157 = 4682070705523654653.
Proof. exactly (2 * 2 ^ 1074) (7334292313079805 * 2 ^ 1037) (7334292313079805 * 2 ^ 1038). Qed.
Lemma right_a : dmul 4611686018427387904 4677567105896284158 = 4682070705523654654.
Proof. exactly (2 * 2 ^ 1074) (7334292313079806 * 2 ^ 1037) (7334292313079806 * 2 ^ 1038). Qed.
Lemma left_dt : dmul 4598175219545276416 4682070705523654653 = 4673063506268913661.
Proof. exactly (2 ^ 1072) (7334292313079805 * 2 ^ 1038) (7334292313079805 * 2 ^ 1036). Qed.
Lemma right_dt : dmul 4598175219545276416 4682070705523654654 = 4673063506268913662.
Proof. exactly (2 ^ 1072) (7334292313079806 * 2 ^ 1038) (7334292313079806 * 2 ^ 1036). Qed.
Lemma left_end : dadd 4445897257144811520 4673063506268913661 = 4673063506268913666.
Proof. reflexivity. Qed.
Lemma right_end : dadd 4445897257144811520 4673063506268913662 = 4673063506268913667.
Proof. reflexivity. Qed.

Lemma left_value : advD 4598175219545276416 4445897257144811520 (lapD 4611686018427387904 4677567105896284160 4445897257144811520 4445897257144811520) = 4673063506268913666.
Proof. unfold advD, lapD. rewrite two, twice_in, left_sum, left_a, left_dt. exact left_end. Qed.
Lemma right_value : advD 4598175219545276416 4445897257144811520 (lapD 4611686018427387904 4445897257144811520 4445897257144811520 4677567105896284160) = 4673063506268913667.
Proof. unfold advD, lapD. rewrite two, twice_in, right_sum, right_a, right_dt. exact right_end. Qed.
