(** Properties of the help text, the statistics table and of blocks adopted by the tracking
    allocator.  Statements only. *)
From Coq Require Import Permutation String.
From Verif Require Import Base BaseFacts NumModel NumProofs HeapModel AllocModel AllocSpec AllocProofs AllocMain PropsAlloc AdoptProofs PrintModel PrintProofs.
Local Open Scope list_scope.

(** ** C119 Help text *)
(** The header, one line per option in the order of the table, the line of --help itself, the
    footer, and nothing else; no text is cut off; the names end in the same columns in all
    lines, and the columns are as narrow as the names allow. *)
Theorem C119_help_text :
  forall header footer opts, opts <> [] -> Forall printable opts ->
  exists w1 w2 lines last,
    print_help header footer opts =
      Ok (match header with Some z => z ++ [10] | None => [] end ++ List.concat lines ++ last ++
          match footer with Some z => z ++ [10] | None => [] end) /\
    Forall2 (fun o line => exists l s d, h_long o = Some l /\ h_short o = Some s /\ h_desc o = Some d /\ row w1 w2 s l d line) opts lines /\
    row w1 w2 (txt "-h") (txt "--help") (txt "This help information.") last /\
    (w1 = 2 \/ exists o s, In o opts /\ h_short o = Some s /\ zlen s = w1) /\
    (w2 = 6 \/ exists o l, In o opts /\ h_long o = Some l /\ zlen l = w2).
Proof. exact help_ok. Qed.
Print Assumptions C119_help_text.
(** Without options the call stops the program, in every build; a missing name is undefined
    behaviour (the parser rejects such tables, C68). *)
Theorem C119_bad_tables :
  forall header footer, print_help header footer [] = Abort /\
  forall opts, (exists o, In o opts /\ (h_long o = None \/ h_short o = None)) -> print_help header footer opts = UB.
Proof. intros header footer. split; [reflexivity|]. intros opts. apply help_null. Qed.
Print Assumptions C119_bad_tables.
Definition hopts : list hopt :=
  [mk_hopt (Some (txt "--number")) (Some (txt "-n")) (Some (txt "a number"));
   mk_hopt (Some (txt "--s")) (Some (txt "-st")) (Some (txt "some text"))].
Definition nl : list Z := [10].
Example C119_example :
  Forall printable hopts /\
  print_help (Some (txt "Usage")) None hopts =
  Ok (txt "Usage" ++ nl ++
      txt " -n --number a number" ++ nl ++
      txt "-st      --s some text" ++ nl ++
      txt " -h   --help This help information." ++ nl).
Proof.
  split; [|vm_compute; reflexivity].
  constructor; [|constructor; [|constructor]]; do 3 eexists; do 3 (split; [reflexivity|]); vm_compute; auto.
Qed.

(** ** C120 The statistics table *)
(** After any calls the table shows the numbers of calls, the bytes in use, the bytes given
    back and their sum, in decimal, right-aligned in columns of ten characters (numbers with
    more digits are shown whole). *)
Theorem C120_statistics_table :
  forall dbg p h0 ops, valid_policy p -> start_heap h0 -> zlen ops <= call_limit ->
  exists s a c z1 z2 z3 z4 z5 z6, session dbg p h0 ops = Ok (s, a, c) /\
  print_stats a =
    txt "|-------------------------|" ++ [10] ++ txt "|    MALLOCATOR STATS     |" ++ [10] ++ txt "|-------------------------|" ++ [10] ++
    (txt "| N   ALLOCS | " ++ z1 ++ txt " |" ++ [10]) ++ (txt "| N REALLOCS | " ++ z2 ++ txt " |" ++ [10]) ++
    (txt "| N    FREES | " ++ z3 ++ txt " |" ++ [10]) ++ txt "|-------------------------|" ++ [10] ++
    (txt "| B T.ALLOCD | " ++ z4 ++ txt " |" ++ [10]) ++ (txt "| B C.ALLOCD | " ++ z5 ++ txt " |" ++ [10]) ++
    (txt "| B    FREED | " ++ z6 ++ txt " |" ++ [10]) ++ txt "|-------------------------|" ++ [10] ++
    txt "| (N) - COUNT             |" ++ [10] ++ txt "| (B) - BYTES             |" ++ [10] ++
    txt "| (T) - TOTAL             |" ++ [10] ++ txt "| (C) - CURRENT           |" ++ [10] ++ txt "|-------------------------|" ++ [10] /\
  cell (w64 (n_allocs c)) z1 /\ cell (w64 (n_reallocs c)) z2 /\ cell (w64 (n_frees c)) z3 /\
  cell (w64 (AllocSpec.total (blocks c) + released c)) z4 /\ cell (w64 (AllocSpec.total (blocks c))) z5 /\ cell (w64 (released c)) z6.
Proof.
  intros dbg p h0 ops V W B. destruct (stats_exact dbg p h0 ops V W B) as (s & a & c & E & A1 & A2 & A3 & A4 & A5).
  assert (R : forall z, 0 <= w64 z < two64) by (intros z; apply Z.mod_pos_bound; reflexivity).
  destruct (stats_table a) as (z1 & z2 & z3 & z4 & z5 & z6 & T & H); rewrite ?A1, ?A2, ?A3, ?A4, ?A5; auto.
  exists s, a, c, z1, z2, z3, z4, z5, z6.
  rewrite A1, A2, A3, A4, A5, w64_add, (Z.add_comm (AllocSpec.total _)), w64_add, (Z.add_comm (released c)) in H. auto.
Qed.
Print Assumptions C120_statistics_table.
Example C120_example :
  (let* r := session true bump ex_heap [AAlloc 40; AAlloc 1000; ARealloc 1 15; AFree 0] in
   Ok (firstn 224 (skipn 84 (print_stats (snd (fst r)))))) =
  Ok (txt "| N   ALLOCS |          2 |" ++ nl ++ txt "| N REALLOCS |          1 |" ++ nl ++ txt "| N    FREES |          1 |" ++ nl ++
      txt "|-------------------------|" ++ nl ++
      txt "| B T.ALLOCD |       1040 |" ++ nl ++ txt "| B C.ALLOCD |       1000 |" ++ nl ++ txt "| B    FREED |         40 |" ++ nl ++
      txt "|-------------------------|" ++ nl).
Proof. vm_compute. reflexivity. Qed.

(** ** C121 Adopted blocks *)
(** Full statement: when a string takes over a block that was allocated elsewhere
    (vt_str_take_ownership, vt_path_get_cwd) and is given an allocator, destroying the
    allocator releases the block like all other blocks of its strings.  False: the block is
    not in the list of the allocator, and as long as the string is not resized it stays
    allocated after the allocator is gone. *)
Theorem C121_adopted_refuted :
  (let* r := session true bump ex_heap [AAlloc 32] in                       (* the string object; its text is block 5 *)
   let* s := mallocator_destroy (fst (fst r)) (snd (fst r)) in
   Ok (s_heap s)) = Ok [(5, [Some 1; Some 2])].
Proof. vm_compute. reflexivity. Qed.
Print Assumptions C121_adopted_refuted.

(** Once the string has been resized, the block counts as one of the allocator's: the resize
    keeps the text, all later statistics are exact (the block counts with its whole size from
    then on), and destroying the allocator releases it along with everything else.
    Missing: the time before the first resize. *)
Theorem C121_adopted_partial :
  forall dbg p h0 ops ops' q b n, valid_policy p -> start_heap h0 -> zlen ops + zlen ops' < call_limit ->
  hlookup h0 q = Some b -> 0 < zlen b <= alloc_max -> sane n = true ->
  exists s a c s1 a1 q1 s2 a2 c2 s3,
    session dbg p h0 ops = Ok (s, a, c) /\
    mallocator_realloc dbg p s a q n = Ok (s1, a1, q1) /\
    hlookup (s_heap s1) q1 = Some (overlay b n) /\ kept (s_heap s) (s_heap s1) (blocks c) /\
    client_run dbg p (s1, a1, adopted c q1 n) ops' = Ok (s2, a2, c2) /\
    (c_allocs a2 = w64 (n_allocs c2) /\ c_reallocs a2 = w64 (n_reallocs c2) /\ c_frees a2 = w64 (n_frees c2) /\
     c_bytes a2 = w64 (AllocSpec.total (blocks c2)) /\ c_freed a2 = w64 (released c2)) /\
    mallocator_destroy s2 a2 = Ok s3 /\ hlookup (s_heap s3) q = None /\
    (forall x, x <> q -> hlookup (s_heap s3) x = hlookup h0 x).
Proof. exact adopt_exact. Qed.
Print Assumptions C121_adopted_partial.
Example C121_example :
  (let* r := session true bump ex_heap [AAlloc 32] in
   let '(s, a, c) := r in
   let* r := mallocator_realloc true bump s a 5 4 in
   let '(s, a, q) := r in
   let* d := mallocator_destroy s a in
   Ok (hlookup (s_heap s) q, c_reallocs a, c_bytes a, s_heap d)) = Ok (Some [Some 1; Some 2; None; None], 1, 36, []).
Proof. vm_compute. reflexivity. Qed.
