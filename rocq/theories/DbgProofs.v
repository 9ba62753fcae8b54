(** A debug build against a release build: the checks of a debug build can only stop the program. *)
From Coq Require Import List ZArith Bool Lia.
From Verif Require Import Base VecModel PlistModel SpanModel TypedModel StrModel StrModel2 StrSpec StrAlias HeapModel AllocModel AllocSpec AllocMain ContModel ArgModel DtModel FsModel LogModel PathModel LocModel.
Import ListNotations.
Open Scope Z_scope.

(** [a] stopped at a failed check, or it is [b] *)
Definition stops {A} (a b : res A) : Prop := a = Abort \/ a = b.

Lemma stops_refl {A} (a : res A) : stops a a. Proof. right; reflexivity. Qed.
Lemma stops_abort {A} (b : res A) : stops Abort b. Proof. left; reflexivity. Qed.
Lemma stops_bind {A B} (a b : res A) (k k' : A -> res B) :
  stops a b -> (forall x, stops (k x) (k' x)) -> stops (bind a k) (bind b k').
Proof. intros [-> | ->] H; [left; reflexivity|]. destruct b; cbn; try (right; reflexivity). apply H. Qed.
Lemma st_dassert c : stops (dassert true c) (dassert false c).
Proof. destruct c; [right|left]; reflexivity. Qed.
Create HintDb stops.
#[export] Hint Resolve st_dassert : stops.
Ltac st1 :=
  lazymatch goal with
  | |- stops ?a ?a => apply stops_refl
  | |- stops Abort _ => apply stops_abort
  | |- stops (bind _ _) (bind _ _) => apply stops_bind; [|intros]
  | |- stops (match ?x with _ => _ end) (match ?x with _ => _ end) => destruct x
  | |- stops (if true then _ else _) _ => cbv iota
  end.
Ltac st := repeat (first [solve [auto 3 with stops nocore] | st1 | progress cbv beta zeta iota | progress cbn [fst snd]]).

Lemma st_c_calloc (bytes : Z) : stops (c_calloc true bytes) (c_calloc false bytes).
Proof. unfold c_calloc. st. Qed.
#[export] Hint Resolve st_c_calloc : stops.
Lemma st_c_realloc (b : blk) (bytes : Z) : stops (c_realloc true b bytes) (c_realloc false b bytes).
Proof. unfold c_realloc. st. Qed.
#[export] Hint Resolve st_c_realloc : stops.
Lemma st_bswap (b : blk) (o1 : Z) (o2 : Z) (n : Z) : stops (bswap true b o1 o2 n) (bswap false b o1 o2 n).
Proof. unfold bswap. st. Qed.
#[export] Hint Resolve st_bswap : stops.
Lemma st_vec_create (n : Z) (es : Z) : stops (vec_create true n es) (vec_create false n es).
Proof. unfold vec_create. st. Qed.
#[export] Hint Resolve st_vec_create : stops.
Lemma st_array_get (v : arr) (i : Z) : stops (array_get true v i) (array_get false v i).
Proof. unfold array_get. st. Qed.
#[export] Hint Resolve st_array_get : stops.
Lemma st_vec_get_ptr (v : arr) (i : Z) : stops (vec_get_ptr true v i) (vec_get_ptr false v i).
Proof. unfold vec_get_ptr. st. Qed.
#[export] Hint Resolve st_vec_get_ptr : stops.
Lemma st_vec_get (v : arr) (i : Z) : stops (vec_get true v i) (vec_get false v i).
Proof. unfold vec_get. st. Qed.
#[export] Hint Resolve st_vec_get : stops.
Lemma st_array_set (v : arr) (val : vsrc) (i : Z) : stops (array_set true v val i) (array_set false v val i).
Proof. unfold array_set. st. Qed.
#[export] Hint Resolve st_array_set : stops.
Lemma st_vec_set (v : arr) (val : vsrc) (i : Z) : stops (vec_set true v val i) (vec_set false v val i).
Proof. unfold vec_set. st. Qed.
#[export] Hint Resolve st_vec_set : stops.
Lemma st_vec_dup (v : arr) : stops (vec_dup true v) (vec_dup false v).
Proof. unfold vec_dup. st. Qed.
#[export] Hint Resolve st_vec_dup : stops.
Lemma st_vec_shrink (v : arr) : stops (vec_shrink true v) (vec_shrink false v).
Proof. unfold vec_shrink. st. Qed.
#[export] Hint Resolve st_vec_shrink : stops.
Lemma st_vec_reserve (v : arr) (n : Z) : stops (vec_reserve true v n) (vec_reserve false v n).
Proof. unfold vec_reserve. st. Qed.
#[export] Hint Resolve st_vec_reserve : stops.
Lemma st_vec_resize (v : arr) (n : Z) : stops (vec_resize true v n) (vec_resize false v n).
Proof. unfold vec_resize. st. Qed.
#[export] Hint Resolve st_vec_resize : stops.
Lemma st_vec_grow (v : arr) : stops (vec_grow true v) (vec_grow false v).
Proof. unfold vec_grow. st. Qed.
#[export] Hint Resolve st_vec_grow : stops.
Lemma st_vec_push_back (v : arr) (val : vsrc) : stops (vec_push_back true v val) (vec_push_back false v val).
Proof. unfold vec_push_back. st. Qed.
#[export] Hint Resolve st_vec_push_back : stops.
Lemma st_vec_insert (v : arr) (val : vsrc) (i : Z) : stops (vec_insert true v val i) (vec_insert false v val i).
Proof. unfold vec_insert. st. Qed.
#[export] Hint Resolve st_vec_insert : stops.
Lemma st_vec_push_front (v : arr) (val : vsrc) : stops (vec_push_front true v val) (vec_push_front false v val).
Proof. unfold vec_push_front. st. Qed.
#[export] Hint Resolve st_vec_push_front : stops.
Lemma st_vec_remove (v : arr) (i : Z) (rs : Z) : stops (vec_remove true v i rs) (vec_remove false v i rs).
Proof. unfold vec_remove. st. Qed.
#[export] Hint Resolve st_vec_remove : stops.
Lemma st_vstep (v : arr) (o : vop) : stops (VecModel.vstep true v o) (VecModel.vstep false v o).
Proof. unfold VecModel.vstep. st. Qed.
#[export] Hint Resolve st_vstep : stops.
Lemma st_vrun (v : arr) (ops : list vop) : stops (vrun true v ops) (vrun false v ops).
Proof.
  revert v; induction ops as [|? ops IH]; intros; cbn [vrun]; st.
Qed.
#[export] Hint Resolve st_vrun : stops.
Lemma st_slots_calloc (bytes : Z) : stops (slots_calloc true bytes) (slots_calloc false bytes).
Proof. unfold slots_calloc. st. Qed.
#[export] Hint Resolve st_slots_calloc : stops.
Lemma st_slots_realloc (b : blk) (bytes : Z) : stops (slots_realloc true b bytes) (slots_realloc false b bytes).
Proof. unfold slots_realloc. st. Qed.
#[export] Hint Resolve st_slots_realloc : stops.
Lemma st_plist_create (n : Z) : stops (plist_create true n) (plist_create false n).
Proof. unfold plist_create. st. Qed.
#[export] Hint Resolve st_plist_create : stops.
Lemma st_plist_dup (p : plist) : stops (plist_dup true p) (plist_dup false p).
Proof. unfold plist_dup. st. Qed.
#[export] Hint Resolve st_plist_dup : stops.
Lemma st_plist_reserve (p : plist) (n : Z) : stops (plist_reserve true p n) (plist_reserve false p n).
Proof. unfold plist_reserve. st. Qed.
#[export] Hint Resolve st_plist_reserve : stops.
Lemma st_plist_shrink (p : plist) : stops (plist_shrink true p) (plist_shrink false p).
Proof. unfold plist_shrink. st. Qed.
#[export] Hint Resolve st_plist_shrink : stops.
Lemma st_plist_resize (p : plist) (n : Z) : stops (plist_resize true p n) (plist_resize false p n).
Proof. unfold plist_resize. st. Qed.
#[export] Hint Resolve st_plist_resize : stops.
Lemma st_plist_grow (p : plist) : stops (plist_grow true p) (plist_grow false p).
Proof. unfold plist_grow. st. Qed.
#[export] Hint Resolve st_plist_grow : stops.
Lemma st_plist_insert (p : plist) (x : Z) (i : Z) : stops (plist_insert true p x i) (plist_insert false p x i).
Proof. unfold plist_insert. st. Qed.
#[export] Hint Resolve st_plist_insert : stops.
Lemma st_plist_set (p : plist) (x : Z) (i : Z) : stops (plist_set true p x i) (plist_set false p x i).
Proof. unfold plist_set. st. Qed.
#[export] Hint Resolve st_plist_set : stops.
Lemma st_plist_get (p : plist) (i : Z) : stops (plist_get true p i) (plist_get false p i).
Proof. unfold plist_get. st. Qed.
#[export] Hint Resolve st_plist_get : stops.
Lemma st_plist_push_back (p : plist) (x : Z) : stops (plist_push_back true p x) (plist_push_back false p x).
Proof. unfold plist_push_back. st. Qed.
#[export] Hint Resolve st_plist_push_back : stops.
Lemma st_plist_push_front (p : plist) (x : Z) : stops (plist_push_front true p x) (plist_push_front false p x).
Proof. unfold plist_push_front. st. Qed.
#[export] Hint Resolve st_plist_push_front : stops.
Lemma st_plist_remove (p : plist) (i : Z) (rs : Z) : stops (plist_remove true p i rs) (plist_remove false p i rs).
Proof. unfold plist_remove. st. Qed.
#[export] Hint Resolve st_plist_remove : stops.
Lemma st_plist_can_find (p : plist) (x : Z) : stops (plist_can_find true p x) (plist_can_find false p x).
Proof. unfold plist_can_find. st. Qed.
#[export] Hint Resolve st_plist_can_find : stops.
Lemma st_plist_remove_element (p : plist) (x : Z) (rs : Z) : stops (plist_remove_element true p x rs) (plist_remove_element false p x rs).
Proof. unfold plist_remove_element. st. Qed.
#[export] Hint Resolve st_plist_remove_element : stops.
Lemma st_plstep (p : plist) (o : plop) : stops (plstep true p o) (plstep false p o).
Proof. unfold plstep. st. Qed.
#[export] Hint Resolve st_plstep : stops.
Lemma st_plrun (p : plist) (ops : list plop) : stops (plrun true p ops) (plrun false p ops).
Proof.
  revert p; induction ops as [|? ops IH]; intros; cbn [plrun]; st.
Qed.
#[export] Hint Resolve st_plrun : stops.
Lemma st_span_from (off : Z) (len : Z) (es : Z) : stops (span_from true off len es) (span_from false off len es).
Proof. unfold span_from. st. Qed.
#[export] Hint Resolve st_span_from : stops.
Lemma st_span_from_to (off : Z) (from : Z) (to : Z) (es : Z) : stops (span_from_to true off from to es) (span_from_to false off from to es).
Proof. unfold span_from_to. st. Qed.
#[export] Hint Resolve st_span_from_to : stops.
Lemma st_span_get (b : blk) (s : span) (i : Z) : stops (span_get true b s i) (span_get false b s i).
Proof. unfold span_get. st. Qed.
#[export] Hint Resolve st_span_get : stops.
Lemma st_span_set (b : blk) (s : span) (d : list Z) (i : Z) : stops (span_set true b s d i) (span_set false b s d i).
Proof. unfold span_set. st. Qed.
#[export] Hint Resolve st_span_set : stops.
Lemma st_vec_push_front_t (t : ctype) (v : arr) (x : Z) : stops (vec_push_front_t true t v x) (vec_push_front_t false t v x).
Proof. unfold vec_push_front_t. st. Qed.
#[export] Hint Resolve st_vec_push_front_t : stops.
Lemma st_vec_push_back_t (t : ctype) (v : arr) (x : Z) : stops (vec_push_back_t true t v x) (vec_push_back_t false t v x).
Proof. unfold vec_push_back_t. st. Qed.
#[export] Hint Resolve st_vec_push_back_t : stops.
Lemma st_vec_set_t (t : ctype) (v : arr) (x : Z) (i : Z) : stops (vec_set_t true t v x i) (vec_set_t false t v x i).
Proof. unfold vec_set_t. st. Qed.
#[export] Hint Resolve st_vec_set_t : stops.
Lemma st_vec_get_t (t : ctype) (v : arr) (i : Z) : stops (vec_get_t true t v i) (vec_get_t false t v i).
Proof. unfold vec_get_t. st. Qed.
#[export] Hint Resolve st_vec_get_t : stops.
Lemma st_vec_insert_t (t : ctype) (v : arr) (x : Z) (i : Z) : stops (vec_insert_t true t v x i) (vec_insert_t false t v x i).
Proof. unfold vec_insert_t. st. Qed.
#[export] Hint Resolve st_vec_insert_t : stops.
Lemma st_span_get_t (t : ctype) (b : blk) (s : span) (i : Z) : stops (span_get_t true t b s i) (span_get_t false t b s i).
Proof. unfold span_get_t. st. Qed.
#[export] Hint Resolve st_span_get_t : stops.
Lemma st_span_set_t (t : ctype) (b : blk) (s : span) (x : Z) (i : Z) : stops (span_set_t true t b s x i) (span_set_t false t b s x i).
Proof. unfold span_set_t. st. Qed.
#[export] Hint Resolve st_span_set_t : stops.
Lemma st_tstep (t : ctype) (v : arr) (o : top) : stops (TypedModel.tstep true t v o) (TypedModel.tstep false t v o).
Proof. unfold TypedModel.tstep. st. Qed.
#[export] Hint Resolve st_tstep : stops.
Lemma st_trun (t : ctype) (v : arr) (ops : list top) : stops (TypedModel.trun true t v ops) (TypedModel.trun false t v ops).
Proof.
  revert t v; induction ops as [|? ops IH]; intros; cbn [TypedModel.trun]; st.
Qed.
#[export] Hint Resolve st_trun : stops.
Lemma st_srealloc (s : str) (bytes : Z) : stops (srealloc true s bytes) (srealloc false s bytes).
Proof. unfold srealloc. st. Qed.
#[export] Hint Resolve st_srealloc : stops.
Lemma st_str_create_len (n : Z) : stops (str_create_len true n) (str_create_len false n).
Proof. unfold str_create_len. st. Qed.
#[export] Hint Resolve st_str_create_len : stops.
Lemma st_str_set_n (s : str) (z : list Z) (n : Z) : stops (str_set_n true s z n) (str_set_n false s z n).
Proof. unfold str_set_n. st. Qed.
#[export] Hint Resolve st_str_set_n : stops.
Lemma st_str_create (z : list Z) : stops (str_create true z) (str_create false z).
Proof. unfold str_create. st. Qed.
#[export] Hint Resolve st_str_create : stops.
Lemma st_str_create_capacity (n : Z) : stops (str_create_capacity true n) (str_create_capacity false n).
Proof. unfold str_create_capacity. st. Qed.
#[export] Hint Resolve st_str_create_capacity : stops.
Lemma st_str_dup (s : str) : stops (str_dup true s) (str_dup false s).
Proof. unfold str_dup. st. Qed.
#[export] Hint Resolve st_str_dup : stops.
Lemma st_str_take_ownership (b : blk) : stops (str_take_ownership true b) (str_take_ownership false b).
Proof. unfold str_take_ownership. st. Qed.
#[export] Hint Resolve st_str_take_ownership : stops.
Lemma st_str_shrink (s : str) : stops (str_shrink true s) (str_shrink false s).
Proof. unfold str_shrink. st. Qed.
#[export] Hint Resolve st_str_shrink : stops.
Lemma st_str_reserve (s : str) (n : Z) : stops (str_reserve true s n) (str_reserve false s n).
Proof. unfold str_reserve. st. Qed.
#[export] Hint Resolve st_str_reserve : stops.
Lemma st_str_resize (s : str) (n : Z) : stops (str_resize true s n) (str_resize false s n).
Proof. unfold str_resize. st. Qed.
#[export] Hint Resolve st_str_resize : stops.
Lemma st_str_set (s : str) (z : list Z) : stops (str_set true s z) (str_set false s z).
Proof. unfold str_set. st. Qed.
#[export] Hint Resolve st_str_set : stops.
Lemma st_str_append_n (s : str) (z : list Z) (n : Z) : stops (str_append_n true s z n) (str_append_n false s z n).
Proof. unfold str_append_n. st. Qed.
#[export] Hint Resolve st_str_append_n : stops.
Lemma st_str_append (s : str) (z : list Z) : stops (str_append true s z) (str_append false s z).
Proof. unfold str_append. st. Qed.
#[export] Hint Resolve st_str_append : stops.
Lemma st_str_appendf (s : str) (txt : list Z) : stops (str_appendf true s txt) (str_appendf false s txt).
Proof. unfold str_appendf. st. Qed.
#[export] Hint Resolve st_str_appendf : stops.
Lemma st_str_vfmt_set (s : str) (txt : list Z) : stops (str_vfmt_set true s txt) (str_vfmt_set false s txt).
Proof. unfold str_vfmt_set. st. Qed.
#[export] Hint Resolve st_str_vfmt_set : stops.
Lemma st_str_insert (s : str) (z : list Z) (at_ : Z) : stops (str_insert true s z at_) (str_insert false s z at_).
Proof. unfold str_insert. st. Qed.
#[export] Hint Resolve st_str_insert : stops.
Lemma st_str_insertf (s : str) (at_ : Z) (txt : list Z) : stops (str_insertf true s at_ txt) (str_insertf false s at_ txt).
Proof. unfold str_insertf. st. Qed.
#[export] Hint Resolve st_str_insertf : stops.
Lemma st_str_insert_n (s : str) (z : list Z) (at_ : Z) (n : Z) : stops (str_insert_n true s z at_ n) (str_insert_n false s z at_ n).
Proof. unfold str_insert_n. st. Qed.
#[export] Hint Resolve st_str_insert_n : stops.
Lemma st_str_insert_before (s : str) (sub : list Z) (z : list Z) : stops (str_insert_before true s sub z) (str_insert_before false s sub z).
Proof. unfold str_insert_before. st. Qed.
#[export] Hint Resolve st_str_insert_before : stops.
Lemma st_str_insert_after (s : str) (sub : list Z) (z : list Z) : stops (str_insert_after true s sub z) (str_insert_after false s sub z).
Proof. unfold str_insert_after. st. Qed.
#[export] Hint Resolve st_str_insert_after : stops.
Lemma st_str_remove (s : str) (from : Z) (n : Z) : stops (str_remove true s from n) (str_remove false s from n).
Proof. unfold str_remove. st. Qed.
#[export] Hint Resolve st_str_remove : stops.
Lemma st_str_set_at (s : str) (z : list Z) (at_ : Z) : stops (str_set_at true s z at_) (str_set_at false s z at_).
Proof. unfold str_set_at. st. Qed.
#[export] Hint Resolve st_str_set_at : stops.
Lemma st_str_set_c (s : str) (c : Z) (at_ : Z) : stops (str_set_c true s c at_) (str_set_c false s c at_).
Proof. unfold str_set_c. st. Qed.
#[export] Hint Resolve st_str_set_c : stops.
Lemma st_str_remove_last (fuel : nat) (s : str) (z : list Z) : stops (str_remove_last true fuel s z) (str_remove_last false fuel s z).
Proof. unfold str_remove_last. st. Qed.
#[export] Hint Resolve st_str_remove_last : stops.
Lemma st_replace_at (s : str) (sub : list Z) (rsub : list Z) (i : Z) : stops (replace_at true s sub rsub i) (replace_at false s sub rsub i).
Proof. unfold replace_at. st. Qed.
#[export] Hint Resolve st_replace_at : stops.
Lemma st_replace_loop (fuel : nat) (s : str) (sub : list Z) (rsub : list Z) (p : Z) : stops (replace_loop fuel true s sub rsub p) (replace_loop fuel false s sub rsub p).
Proof.
  revert s sub rsub p; induction fuel as [|fuel IH]; intros; cbn [replace_loop]; st.
Qed.
#[export] Hint Resolve st_replace_loop : stops.
Lemma st_str_replace (fuel : nat) (s : str) (sub : list Z) (rsub : list Z) : stops (str_replace true fuel s sub rsub) (str_replace false fuel s sub rsub).
Proof. unfold str_replace. st. Qed.
#[export] Hint Resolve st_str_replace : stops.
Lemma st_str_replace_first (s : str) (sub : list Z) (rsub : list Z) : stops (str_replace_first true s sub rsub) (str_replace_first false s sub rsub).
Proof. unfold str_replace_first. st. Qed.
#[export] Hint Resolve st_str_replace_first : stops.
Lemma st_str_replace_last (fuel : nat) (s : str) (sub : list Z) (rsub : list Z) : stops (str_replace_last true fuel s sub rsub) (str_replace_last false fuel s sub rsub).
Proof. unfold str_replace_last. st. Qed.
#[export] Hint Resolve st_str_replace_last : stops.
Lemma st_split_loop (fuel : nat) (b : blk) (sep : list Z) (head : Z) (acc : list str) : stops (split_loop fuel true b sep head acc) (split_loop fuel false b sep head acc).
Proof.
  revert b sep head acc; induction fuel as [|fuel IH]; intros; cbn [split_loop]; st.
Qed.
#[export] Hint Resolve st_split_loop : stops.
Lemma st_str_split (fuel : nat) (s : str) (sep : list Z) : stops (str_split true fuel s sep) (str_split false fuel s sep).
Proof. unfold str_split. st. Qed.
#[export] Hint Resolve st_str_split : stops.
Lemma st_str_split_between (s : option str) (z : list Z) (zl : list Z) (zr : list Z) : stops (str_split_between true s z zl zr) (str_split_between false s z zl zr).
Proof. unfold str_split_between. st. Qed.
#[export] Hint Resolve st_str_split_between : stops.
Lemma st_join_loop (st : str) (sep : list Z) (l : list (list Z)) : stops (join_loop true st sep l) (join_loop false st sep l).
Proof.
  revert st sep; induction l as [|? l IH]; intros; cbn [join_loop]; st.
Qed.
#[export] Hint Resolve st_join_loop : stops.
Lemma st_str_join (s : option str) (sep : list Z) (p : list (list Z)) : stops (str_join true s sep p) (str_join false s sep p).
Proof. unfold str_join. st. Qed.
#[export] Hint Resolve st_str_join : stops.
Lemma st_join_n_loop (st : str) (sep : list Z) (l : list (list Z)) : stops (join_n_loop true st sep l) (join_n_loop false st sep l).
Proof.
  revert st sep; induction l as [|? l IH]; intros; cbn [join_n_loop]; st.
Qed.
#[export] Hint Resolve st_join_n_loop : stops.
Lemma st_str_join_n (s : option str) (sep : list Z) (l : list (list Z)) : stops (str_join_n true s sep l) (str_join_n false s sep l).
Proof. unfold str_join_n. st. Qed.
#[export] Hint Resolve st_str_join_n : stops.
Lemma st_str_pop_get_first (sr : option str) (s : str) (sep : list Z) : stops (str_pop_get_first true sr s sep) (str_pop_get_first false sr s sep).
Proof. unfold str_pop_get_first. st. Qed.
#[export] Hint Resolve st_str_pop_get_first : stops.
Lemma st_str_pop_get_last (fuel : nat) (sr : option str) (s : str) (sep : list Z) : stops (str_pop_get_last true fuel sr s sep) (str_pop_get_last false fuel sr s sep).
Proof. unfold str_pop_get_last. st. Qed.
#[export] Hint Resolve st_str_pop_get_last : stops.
Lemma st_str_equals_n (z1 : list Z) (z2 : list Z) (n : Z) : stops (str_equals_n true z1 z2 n) (str_equals_n false z1 z2 n).
Proof. unfold str_equals_n. st. Qed.
#[export] Hint Resolve st_str_equals_n : stops.
Lemma st_str_is_numeric_z (z : list Z) (len : Z) : stops (str_is_numeric_z true z len) (str_is_numeric_z false z len).
Proof. unfold str_is_numeric_z. st. Qed.
#[export] Hint Resolve st_str_is_numeric_z : stops.
Lemma st_ok1 a b : stops a b -> stops (ok1 a) (ok1 b).
Proof. intros H. unfold ok1. apply stops_bind; [exact H|intros; apply stops_refl]. Qed.
#[export] Hint Resolve st_ok1 : stops.
Lemma st_sstep (s : str) (o : sop) : stops (sstep true s o) (sstep false s o).
Proof. unfold sstep. st. Qed.
#[export] Hint Resolve st_sstep : stops.
Lemma st_srun (s : str) (ops : list sop) : stops (srun true s ops) (srun false s ops).
Proof.
  revert s; induction ops as [|? ops IH]; intros; cbn [srun]; st.
Qed.
#[export] Hint Resolve st_srun : stops.
Lemma st_smake (i : sinit) : stops (smake true i) (smake false i).
Proof. unfold smake. st. Qed.
#[export] Hint Resolve st_smake : stops.
Lemma st_str_set_n_own (s : str) (o : Z) (n : Z) : stops (str_set_n_own true s o n) (str_set_n_own false s o n).
Proof. unfold str_set_n_own. st. Qed.
#[export] Hint Resolve st_str_set_n_own : stops.
Lemma st_str_set_own (s : str) (o : Z) : stops (str_set_own true s o) (str_set_own false s o).
Proof. unfold str_set_own. st. Qed.
#[export] Hint Resolve st_str_set_own : stops.
Lemma st_str_append_n_own (s : str) (o : Z) (n : Z) : stops (str_append_n_own true s o n) (str_append_n_own false s o n).
Proof. unfold str_append_n_own. st. Qed.
#[export] Hint Resolve st_str_append_n_own : stops.
Lemma st_str_append_own (s : str) (o : Z) : stops (str_append_own true s o) (str_append_own false s o).
Proof. unfold str_append_own. st. Qed.
#[export] Hint Resolve st_str_append_own : stops.
Lemma st_str_insert_own (s : str) (o : Z) (at_ : Z) : stops (str_insert_own true s o at_) (str_insert_own false s o at_).
Proof. unfold str_insert_own. st. Qed.
#[export] Hint Resolve st_str_insert_own : stops.
Lemma st_str_set_at_own (s : str) (o : Z) (at_ : Z) : stops (str_set_at_own true s o at_) (str_set_at_own false s o at_).
Proof. unfold str_set_at_own. st. Qed.
#[export] Hint Resolve st_str_set_at_own : stops.
Lemma st_sys_calloc (p : policy) (s : sys) (bytes : Z) : stops (sys_calloc true p s bytes) (sys_calloc false p s bytes).
Proof. unfold sys_calloc. st. Qed.
#[export] Hint Resolve st_sys_calloc : stops.
Lemma st_sys_realloc (p : policy) (s : sys) (ptr : Z) (bytes : Z) : stops (sys_realloc true p s ptr bytes) (sys_realloc false p s ptr bytes).
Proof. unfold sys_realloc. st. Qed.
#[export] Hint Resolve st_sys_realloc : stops.
Lemma st_mallocator_create (p : policy) (s : sys) : stops (mallocator_create true p s) (mallocator_create false p s).
Proof. unfold mallocator_create. st. Qed.
#[export] Hint Resolve st_mallocator_create : stops.
Lemma st_obj_list_find (a : alc) (ptr : Z) : stops (obj_list_find true a ptr) (obj_list_find false a ptr).
Proof. unfold obj_list_find. st. Qed.
#[export] Hint Resolve st_obj_list_find : stops.
Lemma st_obj_list_resize (p : policy) (s : sys) (a : alc) (n : Z) : stops (obj_list_resize true p s a n) (obj_list_resize false p s a n).
Proof. unfold obj_list_resize. st. Qed.
#[export] Hint Resolve st_obj_list_resize : stops.
Lemma st_obj_list_add (p : policy) (s : sys) (a : alc) (e : Z * Z) : stops (obj_list_add true p s a e) (obj_list_add false p s a e).
Proof. unfold obj_list_add. st. Qed.
#[export] Hint Resolve st_obj_list_add : stops.
Lemma st_obj_list_remove (a : alc) (ptr : Z) : stops (obj_list_remove true a ptr) (obj_list_remove false a ptr).
Proof. unfold obj_list_remove. st. Qed.
#[export] Hint Resolve st_obj_list_remove : stops.
Lemma st_mallocator_alloc (p : policy) (s : sys) (a : alc) (bytes : Z) : stops (mallocator_alloc true p s a bytes) (mallocator_alloc false p s a bytes).
Proof. unfold mallocator_alloc. st. Qed.
#[export] Hint Resolve st_mallocator_alloc : stops.
Lemma st_mallocator_realloc (p : policy) (s : sys) (a : alc) (ptr : Z) (bytes : Z) : stops (mallocator_realloc true p s a ptr bytes) (mallocator_realloc false p s a ptr bytes).
Proof. unfold mallocator_realloc. st. Qed.
#[export] Hint Resolve st_mallocator_realloc : stops.
Lemma st_mallocator_free (s : sys) (a : alc) (ptr : Z) : stops (mallocator_free true s a ptr) (mallocator_free false s a ptr).
Proof. unfold mallocator_free. st. Qed.
#[export] Hint Resolve st_mallocator_free : stops.
Lemma st_client_step (p : policy) (st : sys * alc * client) (o : aop) : stops (client_step true p st o) (client_step false p st o).
Proof. unfold client_step. st. Qed.
#[export] Hint Resolve st_client_step : stops.
Lemma st_client_run (p : policy) (st : sys * alc * client) (ops : list aop) : stops (client_run true p st ops) (client_run false p st ops).
Proof.
  revert p st; induction ops as [|? ops IH]; intros; cbn [client_run]; st.
Qed.
#[export] Hint Resolve st_client_run : stops.
Lemma st_session (p : policy) (h0 : heap) (ops : list aop) : stops (session true p h0 ops) (session false p h0 ops).
Proof. unfold session. st. Qed.
#[export] Hint Resolve st_session : stops.
Lemma st_m_alloc (p : policy) (m : mem) (use : bool) (n : Z) : stops (m_alloc true p m use n) (m_alloc false p m use n).
Proof. unfold m_alloc. st. Qed.
#[export] Hint Resolve st_m_alloc : stops.
Lemma st_m_realloc (p : policy) (m : mem) (use : bool) (ptr : Z) (n : Z) : stops (m_realloc true p m use ptr n) (m_realloc false p m use ptr n).
Proof. unfold m_realloc. st. Qed.
#[export] Hint Resolve st_m_realloc : stops.
Lemma st_m_free (m : mem) (use : bool) (ptr : Z) : stops (m_free true m use ptr) (m_free false m use ptr).
Proof. unfold m_free. st. Qed.
#[export] Hint Resolve st_m_free : stops.
Lemma st_c_place (p : policy) (m : mem) (use : bool) (x : body) : stops (c_place true p m use x) (c_place false p m use x).
Proof. unfold c_place. st. Qed.
#[export] Hint Resolve st_c_place : stops.
Lemma st_c_destroy (m : mem) (c : cont) : stops (c_destroy true m c) (c_destroy false m c).
Proof. unfold c_destroy. st. Qed.
#[export] Hint Resolve st_c_destroy : stops.
Lemma st_c_put (p : policy) (m : mem) (c : cont) (x : body) (always : bool) : stops (c_put true p m c x always) (c_put false p m c x always).
Proof. unfold c_put. st. Qed.
#[export] Hint Resolve st_c_put : stops.
Lemma st_c_insertf (p : policy) (m : mem) (c : cont) (at_ : Z) (txt : list Z) : stops (c_insertf true p m c at_ txt) (c_insertf false p m c at_ txt).
Proof. unfold c_insertf. st. Qed.
#[export] Hint Resolve st_c_insertf : stops.
Lemma st_w_new w a b : stops a b -> stops (w_new w a) (w_new w b).
Proof. intros H. unfold w_new. apply stops_bind; [exact H|intros; apply stops_refl]. Qed.
Lemma st_w_upd w i a b q : stops a b -> stops (w_upd w i a q) (w_upd w i b q).
Proof. intros H. unfold w_upd. apply stops_bind; [exact H|intros; apply stops_refl]. Qed.
#[export] Hint Resolve st_w_new st_w_upd : stops.
Lemma st_wstep (p : policy) (w : world) (o : wop) : stops (wstep true p w o) (wstep false p w o).
Proof. unfold wstep. st. Qed.
#[export] Hint Resolve st_wstep : stops.
Lemma st_wrun (p : policy) (w : world) (ops : list wop) : stops (wrun true p w ops) (wrun false p w ops).
Proof.
  revert p w; induction ops as [|? ops IH]; intros; cbn [wrun]; st.
Qed.
#[export] Hint Resolve st_wrun : stops.
Lemma st_wstart (p : policy) (h0 : heap) : stops (wstart true p h0) (wstart false p h0).
Proof. unfold wstart. st. Qed.
#[export] Hint Resolve st_wstart : stops.
Lemma st_program (p : policy) (h0 : heap) (ops : list wop) : stops (program true p h0 ops) (program false p h0 ops).
Proof. unfold program. st. Qed.
#[export] Hint Resolve st_program : stops.
Lemma st_assign_value (ty : otype) (old : value) (t : list Z) : stops (assign_value true ty old t) (assign_value false ty old t).
Proof. unfold assign_value. st. Qed.
#[export] Hint Resolve st_assign_value : stops.
Lemma st_assign_nth (opts : list opt) (vals : list value) (j : nat) (t : list Z) : stops (assign_nth true opts vals j t) (assign_nth false opts vals j t).
Proof. unfold assign_nth. st. Qed.
#[export] Hint Resolve st_assign_nth : stops.
Lemma st_parse_loop (opts : list opt) (vals : list value) (sarg : str) (ssplit : str) (args : list (list Z)) : stops (parse_loop true opts vals sarg ssplit args) (parse_loop false opts vals sarg ssplit args).
Proof.
  enough (H : forall n args, (length args <= n)%nat -> forall vals sarg ssplit,
    stops (parse_loop true opts vals sarg ssplit args) (parse_loop false opts vals sarg ssplit args))
    by exact (H _ args (le_n _) vals sarg ssplit).
  clear. intros n. induction n as [|n IH]; intros [|a args] Hn; cbn [length] in Hn; try lia; intros; cbn [parse_loop]; try (st; fail).
  assert (IH1 : forall vals sarg ssplit, stops (parse_loop true opts vals sarg ssplit args) (parse_loop false opts vals sarg ssplit args))
    by (apply IH; lia).
  assert (IH2 : forall b args', args = b :: args' -> forall vals sarg ssplit,
    stops (parse_loop true opts vals sarg ssplit args') (parse_loop false opts vals sarg ssplit args'))
    by (intros b args' ->; apply IH; cbn [length] in Hn; lia).
  destruct args as [|b args']; [|specialize (IH2 _ _ eq_refl)]; st.
Qed.
#[export] Hint Resolve st_parse_loop : stops.
Lemma st_argopt_parse (opts : list opt) (vals : list value) (args : list (list Z)) : stops (argopt_parse true opts vals args) (argopt_parse false opts vals args).
Proof. unfold argopt_parse. st. Qed.
#[export] Hint Resolve st_argopt_parse : stops.
Lemma st_to_text (f : dfmt) (v : vdt) (buf : blk) (len : Z) : stops (to_text true f v buf len) (to_text false f v buf len).
Proof. unfold to_text. st. Qed.
#[export] Hint Resolve st_to_text : stops.
Lemma st_to_text_pretty (v : vdt) (buf : blk) (len : Z) : stops (to_text_pretty true v buf len) (to_text_pretty false v buf len).
Proof. unfold to_text_pretty. st. Qed.
#[export] Hint Resolve st_to_text_pretty : stops.
Lemma st_path_build (s : option str) (p : list (list Z)) : stops (path_build true s p) (path_build false s p).
Proof. unfold path_build. st. Qed.
#[export] Hint Resolve st_path_build : stops.
Lemma st_path_build_n (s : option str) (l : list (list Z)) : stops (path_build_n true s l) (path_build_n false s l).
Proof. unfold path_build_n. st. Qed.
#[export] Hint Resolve st_path_build_n : stops.
Lemma st_path_basename (s : option str) (z : list Z) : stops (path_basename true s z) (path_basename false s z).
Proof. unfold path_basename. st. Qed.
#[export] Hint Resolve st_path_basename : stops.
Lemma st_path_expand_tilda (home : option (list Z)) (z : list Z) : stops (path_expand_tilda true home z) (path_expand_tilda false home z).
Proof. unfold path_expand_tilda. st. Qed.
#[export] Hint Resolve st_path_expand_tilda : stops.
Lemma st_mkdir_loop (cwd : path) (dirs : list str) (sfull : str) (fs : fsys) : stops (mkdir_loop true cwd dirs sfull fs) (mkdir_loop false cwd dirs sfull fs).
Proof.
  revert cwd sfull fs; induction dirs as [|? dirs IH]; intros; cbn [mkdir_loop]; st.
Qed.
#[export] Hint Resolve st_mkdir_loop : stops.
Lemma st_path_mkdir_parents (fs : fsys) (cwd : path) (z : list Z) : stops (path_mkdir_parents true fs cwd z) (path_mkdir_parents false fs cwd z).
Proof. unfold path_mkdir_parents. st. Qed.
#[export] Hint Resolve st_path_mkdir_parents : stops.
Lemma st_file_read (fs : fsys) (cwd : path) (z : list Z) : stops (file_read true fs cwd z) (file_read false fs cwd z).
Proof. unfold file_read. st. Qed.
#[export] Hint Resolve st_file_read : stops.
Lemma st_file_read_to_buffer (fs : fsys) (cwd : path) (z : list Z) (b : blk) (buffer_len : Z) : stops (file_read_to_buffer true fs cwd z b buffer_len) (file_read_to_buffer false fs cwd z b buffer_len).
Proof. unfold file_read_to_buffer. st. Qed.
#[export] Hint Resolve st_file_read_to_buffer : stops.
Lemma st_get_exe (link : option (list Z)) : stops (get_exe true link) (get_exe false link).
Proof. unfold get_exe. st. Qed.
#[export] Hint Resolve st_get_exe : stops.
Lemma st_get_cwd (fs : fsys) (cwd : path) : stops (get_cwd true fs cwd) (get_cwd false fs cwd).
Proof. unfold get_cwd. st. Qed.
#[export] Hint Resolve st_get_cwd : stops.

(** * Log records *)

Lemma st_log_redirect_level p level f : stops (log_redirect_level true p level f) (log_redirect_level false p level f).
Proof. unfold log_redirect_level. st. Qed.
Lemma st_vt_log can_open p tm f level expr zexpr pl msg errmsg : (forall n, can_open n = true) \/ p_on p = false ->
  stops (vt_log true can_open p tm f level expr zexpr pl msg errmsg) (vt_log false can_open p tm f level expr zexpr pl msg errmsg).
Proof.
  intros H. unfold vt_log. apply stops_bind; [apply st_dassert|intros _]. destruct expr; [apply stops_refl|].
  destruct (nth_error (p_names p) (Z.to_nat level)) as [b|]; [|apply stops_refl].
  apply stops_bind; [apply stops_refl|intros [|c name]]; [apply stops_refl|].
  destruct (can_open (c :: name)) eqn:E; [apply stops_refl|].
  destruct H as [H|H]; [rewrite H in E; discriminate|].
  unfold debug_printf, debug_write. rewrite H. right; reflexivity.
Qed.
Lemma st_log_step can_open p c : (forall n, can_open n = true) \/ p_on p = false ->
  stops (LogModel.step true can_open p c) (LogModel.step false can_open p c).
Proof.
  intros H. destruct c; cbn [LogModel.step]; try apply stops_refl.
  - apply stops_bind; [apply st_log_redirect_level|intros; apply stops_refl].
  - apply st_vt_log; exact H.
Qed.
(** The calls that write or redirect do not switch the messages of the debug module on. *)
Lemma emit_on p s t q : emit p s t = Ok q -> p_on q = p_on p.
Proof. destruct s; cbn; [destruct (p_err p)|]; intros [= <-]; reflexivity. Qed.
Lemma log_step_off can_open p c q e : p_on p = false -> c <> CDebugDisable false -> LogModel.step false can_open p c = Ok (q, e) -> p_on q = false.
Proof.
  intros H Hc E. destruct c; cbn [LogModel.step] in E.
  - destruct (log_redirect_level false p level f) as [r| | |] eqn:F; try discriminate. cbn in E. injection E as <- <-.
    unfold log_redirect_level in F. destruct (nth_error (p_names p) (Z.to_nat level)) as [b|]; [|discriminate].
    unfold bind, dassert in F. destruct (strncpy b (name_text f) (LogModel.path_max - 1)) as [b2| | |]; try discriminate. injection F as <-. exact H.
  - destruct (log_redirect_all p f) as [r| | |] eqn:F; try discriminate. cbn in E. injection E as <- <-.
    unfold log_redirect_all in F. destruct (redirect_loop (Z.to_nat log_count) (p_names p) 0 (name_text f)); try discriminate.
    cbn [bind] in F. injection F as <-. exact H.
  - unfold vt_log in E. cbn [dassert bind] in E. destruct expr; [injection E as <- _; exact H|].
    destruct (nth_error (p_names p) (Z.to_nat level)) as [b|]; [|discriminate].
    destruct (match f with Some z => Ok z | None => cstr b end) as [name| | |]; try discriminate. cbn [bind] in E.
    destruct name as [|a name].
    + destruct (emit p Stderr (log_record tm level zexpr pl msg)) as [r| | |] eqn:F; try discriminate. cbn [bind] in E.
      injection E as <- _. rewrite (emit_on _ _ _ _ F). exact H.
    + destruct (can_open (a :: name)); [|injection E as <- _; exact H].
      destruct (emit p (File (a :: name)) (log_record tm level zexpr pl msg)) as [r| | |] eqn:F; try discriminate. cbn [bind] in E.
      injection E as <- _. rewrite (emit_on _ _ _ _ F). exact H.
  - injection E as <- _. exact H.
  - destruct off; [injection E as <- _; reflexivity|congruence].
  - unfold debug_assert, debug_write in E. rewrite H in E. destruct expr; cbn in E; injection E as <- _; exact H.
  - unfold debug_printf, debug_write in E. rewrite H in E. cbn in E. injection E as <- _; exact H.
Qed.
Lemma st_log_run_open can_open p cs : (forall n, can_open n = true) ->
  stops (LogModel.run true can_open p cs) (LogModel.run false can_open p cs).
Proof.
  intros H. revert p; induction cs as [|c cs IH]; intros p; cbn [LogModel.run]; [apply stops_refl|].
  apply stops_bind; [apply st_log_step; left; exact H|]. intros [q []]; [apply IH|apply stops_refl].
Qed.
Lemma st_log_run_off can_open p cs : p_on p = false -> ~ In (CDebugDisable false) cs ->
  stops (LogModel.run true can_open p cs) (LogModel.run false can_open p cs).
Proof.
  revert p; induction cs as [|c cs IH]; intros p H Hc; cbn [LogModel.run]; [apply stops_refl|].
  destruct (st_log_step can_open p c (or_intror H)) as [E|E]; rewrite E; [left; reflexivity|].
  destruct (LogModel.step false can_open p c) as [[q e]| | |] eqn:F; cbn [bind]; try apply stops_refl.
  destruct e; [|apply stops_refl]. apply IH.
  - apply (log_step_off can_open p c q Returns H); [|exact F]. intros ->. apply Hc. left; reflexivity.
  - intros HI. apply Hc. right; exact HI.
Qed.
