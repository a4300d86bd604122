(** Properties of version requirements (builders/__init__.py: check_version). *)
From Coq Require Import String Ascii List NArith ZArith Bool Lia.
From Verif Require Import FnModel VerModel VerSpec VerFacts.
Import ListNotations.
Open Scope N_scope.

Definition text (s : string) : str := map N_of_ascii (list_ascii_of_string s).

(** C52, the claim: each version is either accepted or refused. *)
Definition always_decides : Prop := forall w s, check_version (as_req w) s <> TypeErr.
(** Missing components count as zero. *)
Fixpoint zero_le (b : list Z) : bool :=
  match b with
  | [] => true
  | y :: b' => Z.ltb 0 y || (Z.eqb 0 y && zero_le b')
  end.
Fixpoint pad_le (a b : list Z) {struct a} : bool :=
  match a with
  | [] => zero_le b
  | x :: a' => match b with
               | y :: b' => Z.ltb x y || (Z.eqb x y && pad_le a' b')
               | [] => Z.ltb x 0 || (Z.eqb x 0 && pad_le a' [])
               end
  end.
Definition zeros_do_not_matter : Prop :=
  forall s v m, dotted s v -> pad_le v m = true ->
    check_version (as_req (Wanted None None (Some m))) s = Accept.

(** A component that is not a number cannot be compared with one. *)
Theorem C52_decides_refuted : ~ always_decides.
Proof.
  intros H. apply (H (Wanted None (Some [4; 3]%Z) None) (text "4.2rc1")). vm_compute. reflexivity.
Qed.

Theorem C52_zeros_refuted : ~ zeros_do_not_matter.
Proof.
  intros H.
  assert (dotted (text "4.2.0") [4; 2; 0]%Z) as Hd.
  { apply (dot_more [52] 4%Z [50; 46; 48]); [apply (num_one 4); lia|].
    apply (dot_more [50] 2%Z [48]); [apply (num_one 2); lia|].
    apply dot_one. apply (num_one 0). lia. }
  specialize (H _ _ [4; 2]%Z Hd eq_refl). vm_compute in H. discriminate.
Qed.

(** Versions of numbers: accepted exactly if they satisfy what is wanted, refused
    otherwise. *)
Theorem C52_numeric_partial w s v :
  dotted s v ->
  check_version (as_req w) s = Accept /\ satisfies w v \/
  check_version (as_req w) s = Reject /\ ~ satisfies w v.
Proof. exact (check_version_numeric w s v). Qed.

Example C52_numeric_ex :
  dotted (text "4.10") [4; 10]%Z /\
  check_version (as_req (Wanted None (Some [4; 9]%Z) (Some [5]%Z))) (text "4.10") = Accept /\
  check_version (as_req (Wanted None None (Some [4; 9]%Z))) (text "4.10") = Reject.
Proof.
  split; [|split; reflexivity].
  apply (dot_more [52] 4%Z [49; 48]); [apply (num_one 4); lia|].
  apply dot_one. apply (num_more [49] 1%Z 0); [apply (num_one 1)|]; lia.
Qed.

(** How any text is read as a version. *)
Theorem C52_reads s v : reads_version s v <-> v = version_of s.
Proof. exact (reads_version_iff s v). Qed.
Example C52_reads_ex : reads_version (text "4.-1_0. 3 .2rc1") [CInt 4; CInt (-10); CInt 3; CStr (text "2rc1")].
Proof. apply C52_reads. vm_compute. reflexivity. Qed.

(** All versions and requirements, components being numbers or strings. *)
Theorem C52_exact r s :
  match check_version r s with
  | Accept => (forall e, r_exact r = Some e -> e = version_of s) /\
              (forall l, r_least r = Some l -> ~ mixed (version_of s) l /\ ~ tuple_lower (version_of s) l) /\
              (forall m, r_most r = Some m -> ~ mixed m (version_of s) /\ ~ tuple_lower m (version_of s))
  | Reject => (exists e, r_exact r = Some e /\ e <> version_of s) \/
              (exists l, r_least r = Some l /\ tuple_lower (version_of s) l) \/
              (exists m, r_most r = Some m /\ tuple_lower m (version_of s))
  | TypeErr => (exists l, r_least r = Some l /\ mixed (version_of s) l) \/
               (exists m, r_most r = Some m /\ mixed m (version_of s))
  end.
Proof. exact (check_exact r (version_of s)). Qed.

Example C52_exact_ex :
  check_version (Req None (Some [CInt 4; CInt 2]) None) (text "4.3rc1.1") = TypeErr /\
  check_version (Req None (Some [CInt 3; CInt 2]) None) (text "4.3rc1.1") = Accept /\
  mixed (version_of (text "4.3rc1.1")) [CInt 4; CInt 2].
Proof. split; [reflexivity|]. split; [reflexivity|]. apply mx_tail. apply mx_str_int. Qed.

Print Assumptions C52_decides_refuted.
Print Assumptions C52_zeros_refuted.
Print Assumptions C52_numeric_partial.
Print Assumptions C52_reads.
Print Assumptions C52_exact.
