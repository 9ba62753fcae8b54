(** The assertions of archive/test_mat.c replayed on MatModel.v. *)
From Verif Require Import Base BaseFacts StrModel NumModel VecModel TypedModel MatModel.
From Flocq Require Import Core IEEE754.BinarySingleNaN IEEE754.Binary IEEE754.Bits.
Local Open Scope Z_scope.

(** The bits of the double n / d. *)
Definition dbl (n : Z) (e : Z) : Z := bits_of_b64 (Binary.binary_normalize 53 1024 eq_refl eq_refl BinarySingleNaN.mode_NE n e false).
(** func, test_mat.c:5-7. *)
Definition func (c : list cell) (i j : Z) : list cell := map Some (enc F64 (dbl (i + j) 0)).

Definition some {A} (r : res (option A)) : res A := let* o := r in match o with Some a => Ok a | None => Abort end.
Definition check (b : bool) : res unit := if b then Ok tt else Abort.
Definition is (r : res Z) (x : Z) : res unit := let* y := r in check (y =? x).

(** test_mat.c:13-43. *)
Definition test_first (dbg : bool) : res unit :=
  let* m := some (mat_create dbg 15 15 8) in
  let* _ := check ((m_rows m =? 15) && (m_cols m =? 15)) in
  let* r := mat_resize dbg m 10 10 in let m := fst r in
  let* _ := check ((m_rows m =? 10) && (m_cols m =? 10)) in
  let* m := mat_apply func m in
  let* _ := is (mat_get_t dbg F64 m 1 1) (dbl 2 0) in
  let* r := mat_set_t dbg F64 m (dbl 49 (-1)) 5 5 in let m := fst r in
  let* _ := is (mat_get_t dbg F64 m 5 5) (dbl 49 (-1)) in
  let* c := some (mat_dup dbg m) in
  let* _ := is (mat_get_t dbg F64 c 5 5) (dbl 49 (-1)) in
  let* m := mat_clear m in
  let* _ := check ((m_rows m =? 10) && (m_cols m =? 10)) in
  let* _ := is (mat_get_t dbg F64 m 5 5) (dbl 0 0) in
  let* r := mat_resize dbg m 3 3 in let m := fst r in
  let* m := mat_apply func m in
  is (mat_get_t dbg F64 m 2 2) (dbl 4 0).

(** test_mat.c:45-65. *)
Definition test_second (dbg : bool) : res unit :=
  let* m := some (mat_create dbg 3 6 8) in
  let* _ := check ((m_rows m =? 3) && (m_cols m =? 6)) in
  let* m := mat_apply func m in
  let* _ := is (mat_get_t dbg F64 m 1 1) (dbl 2 0) in
  let* r := mat_set_t dbg F64 m (dbl 49 (-1)) 2 5 in let m := fst r in
  let* _ := is (mat_get_t dbg F64 m 2 5) (dbl 49 (-1)) in
  let* c := some (mat_dup dbg m) in
  let* _ := is (mat_get_t dbg F64 c 2 5) (dbl 49 (-1)) in
  let* m := mat_clear m in
  let* _ := check ((m_rows m =? 3) && (m_cols m =? 6)) in
  is (mat_get_t dbg F64 m 2 5) (dbl 0 0).

Example test_mat_passes : test_first true = Ok tt /\ test_second true = Ok tt /\ test_first false = Ok tt /\ test_second false = Ok tt.
Proof. split; [vm_compute; reflexivity|]. split; [vm_compute; reflexivity|]. split; vm_compute; reflexivity. Qed.
Example test_mat_24 : dbl 49 (-1) = 0x4038800000000000.
Proof. vm_compute. reflexivity. Qed.
