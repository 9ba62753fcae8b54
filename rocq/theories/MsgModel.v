(** The messages the library prints: each format written in /repo/src with the C types of the arguments
    passed to it.  No proofs in this file.

    The table holds the 46 different pairs of a format and argument types among the calls of VT_DEBUG,
    VT_LOG, VT_ENFORCE, VT_ASSERT, printf, fprintf and the like of src/vita; the positions are relative
    to src/vita.  A size_t is a [TUint64], an int a [TInt32], a char pointer (never NULL) a [TText].
    The file size of fileio.c:40, 88 is an int64_t that is not negative there, which %zu may read
    (C11 6.5.2.2p6).  The formats of floating numbers (conv.c) and of users are not in the table. *)
From Verif Require Import Base NumModel PrintModel AllocModel FmtModel.
From Coq Require Import String.
Local Open Scope list_scope.

Record message := mk_message { m_format : list Z; m_args : list aty }.
Definition msg (f : string) (newline : bool) (tys : list aty) : message := mk_message (txt f ++ if newline then [10] else []) tys.

Definition messages : list message :=
  [
   msg "%s" true [TText];   (* allocator/mallocator.c:29, allocator/mallocator.c:30 ... *)
   msg "%s:%s:%d: %zu bytes allocated" true [TText; TText; TUint64; TUint64];   (* allocator/mallocator.c:77 *)
   msg "%s:%s:%d: %zu bytes reallocated (old size: %d)" true [TText; TText; TUint64; TUint64; TUint64];   (* allocator/mallocator.c:108 *)
   msg "%s:%s:%d: %zu bytes freed (left: %zu)" true [TText; TText; TUint64; TUint64; TUint64];   (* allocator/mallocator.c:128 *)
   msg "%s: Out of bounds memory access at %zu, but length is %zu!" true [TText; TUint64; TUint64];   (* container/common.c:79, container/common.c:95 ... *)
   msg "%s: Cannot modify a viewable-only object!" true [TText];   (* container/str.c:160, container/str.c:196 ... *)
   msg "%s: Assigning at %zu, but vt_str_t length is %zu!" true [TText; TUint64; TUint64];   (* container/str.c:244, container/str.c:275 *)
   msg "%s: Supplied string length is %zu, but available space is %zu!" true [TText; TUint64; TUint64];   (* container/str.c:254, container/str.c:297 *)
   msg "%s: Inserts at %zu, but vt_str_t length is %zu!" true [TText; TUint64; TUint64];   (* container/str.c:369 *)
   msg "%s: Start from %zu, but vt_str_t length is %zu!" true [TText; TUint64; TUint64];   (* container/str.c:514 *)
   msg "%s: Must be digits only, not ""<%s>""." true [TText; TText];   (* core/conv.c:13 *)
   msg "%s %s:%s:%zu: %s" true [TText; TText; TText; TUint64; TText];   (* core/core.c:18, core/core.c:31 ... *)
   msg "%s: Failed to initialize sockets!" true [TText];   (* network/sockets.c:7 *)
   msg "%s: Failed to quit sockets!" true [TText];   (* network/sockets.c:18 *)
   msg "%s: Failed to create a server socket!" true [TText];   (* network/sockets.c:39 *)
   msg "%s: Failed to set socket options!" true [TText];   (* network/sockets.c:46 *)
   msg "%s: Failed to bind the socket!" true [TText];   (* network/sockets.c:58 *)
   msg "%s: Error listening for connections!" true [TText];   (* network/sockets.c:64 *)
   msg "%s: Failed to create a client socket!" true [TText];   (* network/sockets.c:75 *)
   msg "%s: Failed to connect to server!" true [TText];   (* network/sockets.c:87 *)
   msg "%s: Error accepting connections!" true [TText];   (* network/sockets.c:104 *)
   msg "%s: Failed to close the socket!" true [TText];   (* network/sockets.c:114, network/sockets.c:119 *)
   msg "%s: Error sending data packet!" true [TText];   (* network/sockets.c:133, network/sockets.c:152 *)
   msg "%s: Error receiving data packet!" true [TText];   (* network/sockets.c:165, network/sockets.c:182 *)
   msg "%s: Failed to open <%s>!" true [TText; TText];   (* system/fileio.c:15, system/fileio.c:63 ... *)
   msg "%s: Failed to read file data! Inconsistent read (%zu) != file size (%zu) bytes" true [TText; TUint64; TUint64];   (* system/fileio.c:40, system/fileio.c:88 ... *)
   msg "" true [];   (* system/fileio.c:241, system/fileio.c:269 ... *)
   msg "%s: Path does not exist <%s>!" true [TText; TText];   (* system/path.c:95, system/path.c:145 *)
   msg "%s: Failed read the directory <%s>!" true [TText; TText];   (* system/path.c:102 *)
   msg "%s: Failed to close the directory <%s>!" true [TText; TText];   (* system/path.c:133, system/path.c:200 *)
   msg "%s: Failed read the directory %s!" true [TText; TText];   (* system/path.c:152 *)
   msg "%s: Path does not exist <%s>" true [TText; TText];   (* system/path.c:372, system/path.c:391 ... *)
   msg "Invalid timestamp format! Expected '%s', but recieved '%s'." true [TText; TText];   (* time/datetime.c:116, time/datetime.c:129 ... *)
   msg "%s: Invalid datetime format." true [];   (* time/datetime.c:156, time/datetime.c:167 *)
   msg "Unrecognized option: %s!" true [TText];   (* util/argopt.c:75 *)
   msg "%*s %*s %s" true [TInt32; TText; TInt32; TText; TText];   (* util/argopt.c:112, util/argopt.c:114 *)
   msg "optionLong cannot be NULL!" true [];   (* util/argopt.c:130 *)
   msg "optionShort cannot be NULL!" true [];   (* util/argopt.c:131 *)
   msg "optionValue cannot be NULL!" true [];   (* util/argopt.c:132 *)
   msg "optionShort=<%s> cannot be longer than 3 characters!" true [TText];   (* util/argopt.c:133 *)
   msg "optionType specified is invalid!" true [];   (* util/argopt.c:134 *)
   msg "%s %s [%s] %s:%s:%zu: " false [TText; TText; TText; TText; TText; TUint64];   (* util/debug.c:32 *)
   msg "%s %s " false [TText; TText];   (* util/debug.c:64 *)
   msg "%s:%i: Failed to open a file <%s>!" true [TText; TUint64; TText];   (* util/log.c:50 *)
   msg "%s %5s %s:%zu: " false [TText; TText; TText; TUint64];   (* util/log.c:56 *)
   msg "%s %5s [%s] %s:%zu: " false [TText; TText; TText; TText; TUint64]   (* util/log.c:58 *)  ].

(** The formats that do not fit their arguments. *)
Definition faulty : list message :=
  [
   msg "%s:%s:%d: %zu bytes allocated" true [TText; TText; TUint64; TUint64];                              (* mallocator.c:77 *)
   msg "%s:%s:%d: %zu bytes reallocated (old size: %d)" true [TText; TText; TUint64; TUint64; TUint64];   (* mallocator.c:108 *)
   msg "%s:%s:%d: %zu bytes freed (left: %zu)" true [TText; TText; TUint64; TUint64; TUint64];            (* mallocator.c:128 *)
   msg "%s: Invalid datetime format." true [];                                                            (* datetime.c:156, 167 *)
   msg "%s:%i: Failed to open a file <%s>!" true [TText; TUint64; TText]                                  (* log.c:50 *)
  ].

(** The format of vt_mallocator_print_stats, mallocator.c:142-157; each %*zu is given the width 10. *)
Definition lines (l : list string) : list Z := flat_map (fun z => txt z ++ [10]) l.
Definition stats_format : list Z :=
  lines ["|-------------------------|"; "|    MALLOCATOR STATS     |"; "|-------------------------|";
         "| N   ALLOCS | %*zu |"; "| N REALLOCS | %*zu |"; "| N    FREES | %*zu |";
         "|-------------------------|";
         "| B T.ALLOCD | %*zu |"; "| B C.ALLOCD | %*zu |"; "| B    FREED | %*zu |";
         "|-------------------------|"; "| (N) - COUNT             |"; "| (B) - BYTES             |";
         "| (T) - TOTAL             |"; "| (C) - CURRENT           |"; "|-------------------------|"]%string.
