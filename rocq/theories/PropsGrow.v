(** The cost of appending to strings and pointer lists.  Statements only. *)
From Verif Require Import Base BaseFacts StrModel StrModel2 StrSpec PlistModel PlistSpec GrowProofs.

(** ** C132 Appending to a string is amortised constant time *)
(** Full statement: there is a constant such that appending characters one by one moves at
    most that many bytes per character.  False: vt_str_append reserves exactly what is
    missing, so every append to a full string reallocates: 2c characters are moved c times
    each and more, whatever c is (as long as the memory suffices). *)
Theorem C132_append_refuted :
  forall dbg c, 0 < c -> 2 * c + 2 <= alloc_max ->
  exists s zs w moved, str_create dbg [97] = Ok s /\ zlen zs = 2 * c /\ Forall (fun z => zlen z = 1) zs /\
    append_all dbg s zs = Ok (w, 2 * c, moved) /\ c * zlen zs < moved.
Proof. exact append_quadratic. Qed.
Print Assumptions C132_append_refuted.
(** What holds: on a full string every append is a reallocation of all bytes held. *)
Theorem C132_full_partial :
  forall dbg zs t s, srep t (zlen t) s -> Forall okappend zs -> zlen (t ++ concat zs) + 1 <= alloc_max ->
  exists w, append_all dbg s zs = Ok (w, zlen zs, held (zlen t) zs) /\ srep (t ++ concat zs) (zlen (t ++ concat zs)) w.
Proof. exact append_all_full. Qed.
Print Assumptions C132_full_partial.
(** With the room reserved before, nothing is moved at all.  Missing: room is never reserved
    ahead by the appends themselves. *)
Theorem C132_reserved_partial :
  forall dbg zs t cap s, srep t cap s -> Forall okappend zs -> zlen (t ++ concat zs) <= cap ->
  exists w, append_all dbg s zs = Ok (w, 0, 0) /\ srep (t ++ concat zs) cap w.
Proof. exact append_all_room. Qed.
Print Assumptions C132_reserved_partial.
Example C132_example :
  exists s w, str_create true [97] = Ok s /\ append_all true s [[98]; [99; 100]; [101]] = Ok (w, 3, 10) /\
  exists s2 w2, str_create_capacity true 9 = Ok s2 /\ append_all true s2 [[98]; [99; 100]; [101]] = Ok (w2, 0, 0) /\ str_z w2 = Ok [98; 99; 100; 101].
Proof. do 2 eexists. split; [vm_compute; reflexivity|]. split; [vm_compute; reflexivity|]. do 2 eexists. split; [vm_compute; reflexivity|]. split; vm_compute; reflexivity. Qed.

(** ** C133 Appending to a pointer list is amortised constant time *)
(** At most logarithmically many reallocations, at most 1.5 moves per pointer. *)
Theorem C133_push_amortised :
  forall dbg n xs p0, 0 < n -> n * 8 <= alloc_max -> zlen xs * 24 <= alloc_max -> Forall (fun x => x <> 0) xs -> plist_create dbg n = Ok p0 ->
  exists w reallocs moved, lpush_all dbg p0 xs = Ok (w, reallocs, moved) /\ plist_len w = zlen xs /\
    (forall i x, 0 <= i -> nth_error xs (Z.to_nat i) = Some x -> plist_get dbg w i = Ok x) /\
    0 <= reallocs /\ (reallocs = 0 \/ n * 3 ^ reallocs < 3 * zlen xs) /\ 2 * moved <= 3 * zlen xs.
Proof. exact lpush_amortised. Qed.
Print Assumptions C133_push_amortised.
Example C133_example : exists p w, plist_create true 1 = Ok p /\ lpush_all true p [5; 6; 7; 8; 9; 5; 6; 7; 8; 9] = Ok (w, 3, 13).
Proof. do 2 eexists. split; [vm_compute; reflexivity|]. vm_compute; reflexivity. Qed.
