(** * Property C21: missing and complete detection *)
From Verif Require Import Base M_Double M_Scalar M_Hash M_Object M_Proxy Spec_Value Spec_Equal Spec_Missing
  L_Missing P_Equal.

Theorem C21_vec_detect_missing p : proxy_ok p ->
  exists out, vec_detect_missing p = Ok out /\
    indicates (proxy_size p) (fun i => row_missing (proxy_row p i)) out.
Proof. exact (vec_detect_missing_correct p). Qed.
Print Assumptions C21_vec_detect_missing.

Theorem C21_vec_any_missing p : proxy_ok p ->
  exists b, vec_any_missing p = Ok b /\
    (b = true <-> exists i, i < proxy_size p /\ row_missing (proxy_row p i)).
Proof. exact (vec_any_missing_correct p). Qed.
Print Assumptions C21_vec_any_missing.

Theorem C21_vec_detect_complete p : proxy_ok p ->
  exists out, vec_detect_complete p = Ok out /\
    indicates (proxy_size p) (fun i => row_complete (proxy_row p i)) out.
Proof. exact (vec_detect_complete_correct p). Qed.
Print Assumptions C21_vec_detect_complete.

Theorem C21_vec_locate_complete p : proxy_ok p ->
  exists out, vec_locate_complete p = Ok out /\
    locates (proxy_size p) (fun i => row_complete (proxy_row p i)) out.
Proof. exact (vec_locate_complete_correct p). Qed.
Print Assumptions C21_vec_locate_complete.

Example C21_run :
  vec_detect_missing ex_y = Ok [0; 0; 0]%Z /\ vec_detect_complete ex_y = Ok [1; 0; 0]%Z /\
  vec_locate_complete ex_y = Ok [1]%Z /\ vec_any_missing ex_y = Ok false /\
  vec_detect_missing (PDf 2 [Vec TInt [EInt 1; EInt NA_INTEGER]; Vec TChr [EChr None; EChr None]]) = Ok [0; 1]%Z.
Proof. repeat split. Qed.
Example C21_ok : proxy_ok ex_y. Proof. exact ex_y_ok. Qed.
(** A data frame without columns: every row counts as missing and as complete. *)
Example C21_no_columns : vec_detect_missing (PDf 2 []) = Ok [1; 1]%Z /\ vec_detect_complete (PDf 2 []) = Ok [1; 1]%Z.
Proof. repeat split. Qed.
