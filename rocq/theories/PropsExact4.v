(** What happens in the cases left out by partial theorems about dates, paths, sockets, typed calls, numbers and
    compositions of string calls.  Statements only. *)
From Coq Require Import String Ascii Reals.
From Flocq Require Import IEEE754.Binary IEEE754.Bits.
From Verif Require Import Base BaseFacts VecModel VecSpec SpanModel TypedModel TypedSpec DtModel NumModel SockModel FloatModel OwnModel OwnSpec StrModel StrModel2 StrSpec StrProofs StrMain FsModel FsSpec PathModel PathProofs MatModel MatMain PropsStr PropsPath ExactMore.
Local Open Scope list_scope.
Local Open Scope Z_scope.

(** C52, C153: the answer for every year: all negative years and all multiples of four. *)
Theorem C52_exact : forall y, is_leap_year y = true <-> y < 0 \/ y mod 4 = 0.
Proof. intros y. rewrite leap_every. lia. Qed.
Print Assumptions C52_exact.
Example C52_exact_example : is_leap_year 1900 = true /\ is_leap_year (-3) = true /\ is_leap_year 2023 = false.
Proof. now vm_compute. Qed.

(** C53, C154: the days of every month number of every year; [mlen lp m] is the length of month [m] (0 = January). *)
Theorem C53_exact : forall y m,
  find_days_in_month y m = mlen ((y <? 0) || (0 <? y) && (y mod 4 =? 0)) (Z.max 1 (Z.min 12 m) - 1) /\
  find_days_in_year y = (if (y <? 0) || (y mod 4 =? 0) then 366 else 365).
Proof. exact (fun y m => conj (month_every y m) (year_every y)). Qed.
Print Assumptions C53_exact.
Example C53_exact_example :
  find_days_in_month 1900 2 = 29 /\ find_days_in_month (-1) 2 = 29 /\ find_days_in_month 0 2 = 28 /\ find_days_in_year 0 = 366 /\
  find_days_in_month 2023 (-7) = 31 /\ find_days_in_month 2023 44 = 31.
Proof. now vm_compute. Qed.

(** C60: popping the empty path reads in front of it, whatever follows. *)
Theorem C60_exact : forall q, zlen q < alloc_max -> path_pop (Some 0 :: q) = UB.
Proof. exact pop_empty. Qed.
Print Assumptions C60_exact.
Example C60_exact_example : path_pop [Some 0; Some 47; Some 0] = UB.
Proof. now vm_compute. Qed.

(** C89: vt_path_mkdir for every path, also with "." and "..".  [made fs p c]: the directory [c] below place [p]. *)
Definition made (fs : fsys) (p : path) (c : name) : fsys * bool :=
  match lookup fs p, lookup fs (p ++ [c]) with
  | Some EDir, None => if name_dec c dot then (fs, false) else if name_dec c dotdot then (fs, false) else (store fs (p ++ [c]) EDir, true)
  | _, _ => (fs, false)
  end.
Theorem C89_exact : forall fs cwd z,
  (path_exists fs cwd z = true -> path_mkdir fs cwd z = (fs, true)) /\
  (path_exists fs cwd z = false ->
   (forall k, z = repeat 47 k -> path_mkdir fs cwd z = (fs, false)) /\
   (forall c k, c <> [] -> ~ In 47 c -> z = c ++ repeat 47 k -> path_mkdir fs cwd z = made fs cwd c) /\
   (forall d c k, c <> [] -> ~ In 47 c -> z = d ++ 47 :: c ++ repeat 47 k ->
      path_mkdir fs cwd z = match match d with [] => Some [] | _ => resolve fs cwd d end with Some p => made fs p c | None => (fs, false) end)) /\
  ((exists k, z = repeat 47 k) \/
   exists c k, c <> [] /\ ~ In 47 c /\ (z = c ++ repeat 47 k \/ exists d, z = d ++ 47 :: c ++ repeat 47 k)).
Proof.
  intros fs cwd z.
  assert (forall p c, ExactMore.made fs p c = made fs p c) as M.
  { intros p c. unfold ExactMore.made, made, special. destruct (lookup fs p) as [[]|]; try reflexivity. destruct (lookup fs (p ++ [c])); try reflexivity.
    destruct (name_dec c dot); [reflexivity|]. now destruct (name_dec c dotdot). }
  split; [exact (mkdir_exists fs cwd z)|]. split; [|exact (mkdir_shapes z)].
  intros X. split; [|split].
  - intros k ->. now apply mkdir_nothing.
  - intros c k Hc N ->. rewrite <- M. now apply mkdir_here.
  - intros d c k Hc N ->. rewrite (mkdir_below fs cwd d c k Hc N X). destruct (match d with [] => Some [] | _ :: _ => resolve fs cwd d end); [apply M|reflexivity].
Qed.
Print Assumptions C89_exact.
Example C89_exact_example :
  path_mkdir fs0 [] (T "f") = (fs0, true) /\ path_mkdir fs0 [] (T "f/x") = (fs0, false) /\ path_mkdir fs0 [] (T "nope/..") = (fs0, false) /\
  path_mkdir fs0 [] (T "new//") = (store fs0 [T "new"] EDir, true) /\ path_mkdir fs0 [] (T "./new") = (store fs0 [T "new"] EDir, true).
Proof. repeat split; vm_compute; reflexivity. Qed.

(** C94: any port stands for its last 16 bits. *)
Theorem C94_exact : forall port,
  (forall tcp u, startup_server tcp port u = startup_server tcp (port mod 65536) u) /\
  (forall a, socket_make_address port a = socket_make_address (port mod 65536) a).
Proof. exact (fun port => conj (fun tcp u => ports_every tcp port u) (address_every port)). Qed.
Print Assumptions C94_exact.
Example C94_exact_example : socket_make_address 65616 0 = socket_make_address 80 0 /\ socket_make_address (-1) 0 = socket_make_address 65535 0.
Proof. now vm_compute. Qed.

(** C92: the limit every wait is given: the last 32 bits, without limit if the topmost of them is set. *)
Theorem C92_exact : forall t, (t mod 2 ^ 32 < 2 ^ 31 -> poll_timeout t = t mod 2 ^ 32) /\ (2 ^ 31 <= t mod 2 ^ 32 -> poll_timeout t < 0).
Proof. exact wait_every. Qed.
Print Assumptions C92_exact.
Example C92_exact_example : poll_timeout 4294967295 = -1 /\ poll_timeout 5000 = 5000.
Proof. now vm_compute. Qed.

(** C104: a type narrower than the elements is always read beyond the argument. *)
Theorem C104_exact : forall dbg t es xs cap v x, vrep es xs cap v -> width t < es ->
  (forall i, 0 <= i < zlen xs -> vec_set_t dbg t v x i = UB) /\
  (grown (zlen xs) cap * es <= alloc_max ->
   vec_push_back_t dbg t v x = UB /\ vec_push_front_t dbg t v x = UB /\ forall i, 0 <= i < zlen xs -> vec_insert_t dbg t v x i = UB).
Proof.
  intros dbg t es xs cap v x H W. split; [intros i; exact (wide_set dbg t es xs cap v x i H W)|]. intros G.
  split; [exact (wide_back dbg t es xs cap v x H W G)|]. split; [exact (wide_front dbg t es xs cap v x H W G)|].
  intros i; exact (wide_insert dbg t es xs cap v x i H W G).
Qed.
Print Assumptions C104_exact.
Example C104_exact_example :
  exists v v', vec_create false 2 8 = Ok v /\ vec_push_back_t false I64 v 7 = Ok v' /\ vec_set_t false I32 v' 5 0 = UB /\ vec_push_front_t true I16 v' 5 = UB.
Proof. do 2 eexists. split; [vm_compute; reflexivity|]. split; [vm_compute; reflexivity|]. now vm_compute. Qed.

(** C106: if one of the numbers is a NaN, both functions return the second argument. *)
Theorem C106_exact : forall prec emax (x y : binary_float prec emax),
  is_nan prec emax x = true \/ is_nan prec emax y = true -> f_min x y = y /\ f_max x y = y.
Proof. exact nan_min_max. Qed.
Print Assumptions C106_exact.
Example C106_exact_example :
  is_nan 24 128 (b32_of_bits 0x7fc00000) = true /\ f_min (b32_of_bits 0x7fc00000) (b32_of_bits 0x3f800000) = b32_of_bits 0x3f800000.
Proof. split; [reflexivity|]. apply nan_min_max. now left. Qed.

(** C118: whenever the right mark comes first (or both are found at one place) and no string was passed, NULL is
    returned and one string stays allocated. *)
Theorem C118_exact : forall z zl zr l r L, wfl L -> strstr z zl = Some l -> strstr z zr = Some r -> r <= l ->
  exists x L', own_split_between None z zl zr L = (None, L') /\ gains L L' [x].
Proof. exact between_lost. Qed.
Print Assumptions C118_exact.
Example C118_exact_example : own_split_between None (T "a]b[c") (T "[") (T "]") (mk_led 4 [2]) = (None, mk_led 5 [4; 2]).
Proof. reflexivity. Qed.

(** C146: if the last piece contains separators, its part after the last separator (but for one at the very end) is
    the base name, and popping removes the part after its last separator only. *)
Theorem C146_exact : forall dbg x l b, Forall (fun p => oks p /\ 0 < zlen p) (x :: l ++ [b]) -> zlen (join_with [47] (x :: l ++ [b])) + 1 <= alloc_max ->
  exists s, path_build dbg None (x :: l ++ [b]) = Ok s /\ str_z s = Ok (join_with [47] (x :: l) ++ [47] ++ b) /\
  (forall d e c, b = d ++ [47] ++ e ++ [c] -> ~ In 47 e ->
     exists st cap, path_basename dbg None (join_with [47] (x :: l ++ [b])) = Ok (Some st) /\ srep (e ++ [c]) cap st) /\
  (forall e, b = e ++ [47] -> ~ In 47 e ->
     exists st cap, path_basename dbg None (join_with [47] (x :: l ++ [b])) = Ok (Some st) /\ srep (e ++ [47]) cap st) /\
  (forall d e, b = d ++ [47] ++ e -> ~ In 47 e ->
     exists blk, path_pop (sb s) = Ok blk /\ cstr blk = Ok (join_with [47] (x :: l) ++ [47] ++ d)).
Proof. exact build_composed. Qed.
Print Assumptions C146_exact.
Example C146_exact_example :
  exists s st blk, path_build true None [T "a"; T "b/c"] = Ok s /\ path_basename true None (T "a/b/c") = Ok (Some st) /\ str_z st = Ok (T "c") /\
    path_pop (sb s) = Ok blk /\ cstr blk = Ok (T "a/b").
Proof. do 3 eexists. repeat (split; [vm_compute; reflexivity|]). vm_compute. reflexivity. Qed.

(** C37: splitting what was joined gives the pieces a left-to-right search for the separator finds in the text, the
    empty ones left out. *)
Theorem C37_exact : forall dbg sep x l ps, oks sep -> 0 < zlen sep -> okpieces (x :: l) -> zlen (join_with sep (x :: l)) + 1 <= alloc_max ->
  scan sep (join_with sep (x :: l)) ps -> zlen sep <= zlen (join_with sep (x :: l)) ->
  exists s, str_join dbg None sep (x :: l) = Ok s /\ str_z s = Ok (join_with sep (x :: l)) /\
    (zlen ps = 1 -> str_split dbg (lf s) s sep = Ok None) /\
    (1 < zlen ps -> (forall l', ps <> l' ++ [[]; []]) ->
      exists qs, str_split dbg (lf s) s sep = Ok (Some qs) /\ Forall2 (fun p q => str_z q = Ok p) (filter (fun p => negb (zlen p =? 0)) ps) qs).
Proof. exact join_split_every. Qed.
Print Assumptions C37_exact.
Example C37_exact_example :
  exists s q, str_join true None (T "--") [T "a-"; T "b"] = Ok s /\ str_split true (lf s) s (T "--") = Ok (Some q) /\ map str_z q = [Ok (T "a"); Ok (T "-b")].
Proof. do 2 eexists. repeat (split; [vm_compute; reflexivity|]). vm_compute. reflexivity. Qed.

(** C143: replacing back replaces what a left-to-right search finds in the changed text. *)
Theorem C143_exact : forall dbg t cap s sub rsub ps qs, srep t cap s -> 0 < zlen sub -> 0 < zlen rsub -> oks sub -> oks rsub ->
  scan sub t ps -> scan rsub (join_with rsub ps) qs ->
  zlen (join_with sub qs) + zlen (join_with rsub ps) + cap + 1 <= alloc_max ->
  exists s1 s2 cap2, str_replace dbg (lf s) s sub rsub = Ok s1 /\ str_z s1 = Ok (join_with rsub ps) /\
    str_replace dbg (lf s1) s1 rsub sub = Ok s2 /\ srep (join_with sub qs) cap2 s2.
Proof. exact replace_twice. Qed.
Print Assumptions C143_exact.
Example C143_exact_example :
  exists s s1 s2, str_create true (T "xay") = Ok s /\ str_replace true (lf s) s (T "a") (T "y") = Ok s1 /\ str_replace true (lf s1) s1 (T "y") (T "a") = Ok s2 /\ str_z s2 = Ok (T "xaa").
Proof. do 3 eexists. repeat (split; [vm_compute; reflexivity|]). vm_compute. reflexivity. Qed.

(** C168: an element read with another type: its leading bytes if the type is narrower and divides it; the last
    element cannot be read with a wider type. *)
Theorem C168_exact : forall dbg ty el m t, is_table el m t ->
  (forall i j x, 0 <= i < t_rows t -> 0 <= j < t_cols t -> el mod width ty = 0 -> t_at t i j = map Some x ->
     mat_get_t dbg ty m i j = Ok (dec ty (firstn (Z.to_nat (width ty)) x))) /\
  (el < width ty -> mat_get_t dbg ty m (t_rows t - 1) (t_cols t - 1) = UB).
Proof.
  intros dbg ty el m t H. split; [|exact (mat_read_last dbg ty el m t H)].
  intros i j x Hi Hj D X. exact (mat_read_narrow dbg ty el m t i j x H Hi Hj D X).
Qed.
Print Assumptions C168_exact.
Example C168_exact_example :
  exists m m', mat_create true 2 2 4 = Ok (Some m) /\ mat_set_t true I32 m 70000 1 1 = Ok (m', Success) /\
    mat_get_t true I16 m' 1 1 = Ok 4464 /\ mat_get_t true I64 m' 1 1 = UB.
Proof. do 2 eexists. repeat (split; [vm_compute; reflexivity|]). vm_compute. reflexivity. Qed.

(** C169: every column outside is a place of a later row. *)
Theorem C169_exact : forall i j c, 0 < c -> index_2d_to_1d i j c = index_2d_to_1d (i + j / c) (j mod c) c.
Proof. exact column_wraps. Qed.
Print Assumptions C169_exact.
Example C169_exact_example : index_2d_to_1d 0 7 3 = index_2d_to_1d 2 1 3.
Proof. reflexivity. Qed.
