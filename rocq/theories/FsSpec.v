(** Vocabulary of the file system properties. *)
From Verif Require Import Base StrSpec FsModel.

(** A name of a directory entry. *)
Definition okname (n : name) : Prop := n <> [] /\ n <> dot /\ n <> dotdot /\ oks n /\ ~ In 47 n.

(** A file system: every path occurs once, consists of names, and its parent is a directory. *)
Record wf (fs : fsys) : Prop := {
  w_nodup : NoDup (map fst fs);
  w_key : forall p e, In (p, e) fs -> exists q n, p = q ++ [n] /\ Forall okname p /\ lookup fs q = Some EDir
}.

(** A path text without "." and ".." components. *)
Definition plain (z : text) : Prop := oks z /\ ~ In dot (comps z) /\ ~ In dotdot (comps z).
(** The names on the path. *)
Definition names (z : text) : list name := filter nonempty (comps z).
(** The place it denotes. *)
Definition target (cwd : path) (z : text) : path := start cwd z ++ names z.

(** The text of the path [q] below the directory text [z]. *)
Definition below_text (z : text) (q : path) : text := z ++ flat_map (fun n => 47 :: n) q.

(** Names listed: with [ign], those not starting with a dot. *)
Definition shown (ign : bool) (n : name) : Prop := ign = true -> forall r, n <> 46 :: r.

(** Longest path of the file system. *)
Definition depth (fs : fsys) : nat := list_max (map (fun qe => length (fst qe)) fs).

(** Contents before their directory. *)
Fixpoint contents_first (l : list path) : Prop :=
  match l with
  | [] => True
  | q :: l' => (forall r, r <> [] -> ~ In (q ++ r) l') /\ contents_first l'
  end.
(** [qs]: everything below the directory [p] (reached through shown names only), once,
    contents first. *)
Definition listing (fs : fsys) (p : path) (ign : bool) (qs : list path) : Prop :=
  NoDup qs /\ contents_first qs /\
  forall q, In q qs <-> q <> [] /\ lookup fs (p ++ q) <> None /\ Forall (shown ign) q.
