(** C232, C233: replacing and doubling single bytes; doubled percent signs in formats.  [str_replace]: StrModel2.v; [format]: FmtModel.v. *)
From Verif Require Import Base BaseFacts StrModel StrModel2 StrSpec StrProofs StrMain NumModel FmtModel FmtProofs PropsFmt PropsStr DblProofs.
From Coq Require Import String.
Local Open Scope list_scope.

(** ** C232 Doubling the percent signs *)
(** A format without conversions gives [z] iff it is [z] with every percent sign doubled. *)
Theorem C232_only : forall f z, format f [] = Ok z <-> f = flat_map (fun x => if x =? 37 then [37; 37] else [x]) z.
Proof. exact format_only. Qed.
Print Assumptions C232_only.
(** So doubling them with vt_str_replace(s, "%", "%%") makes any text safe as a format, or as the beginning of one: vt_str_appendf appends the text itself. *)
Theorem C232_escape :
  forall dbg t cap s u capu d f args z, srep t cap s -> srep u capu d -> format f args = Ok z -> oks z ->
  Z.max cap (2 * zlen t) + 1 <= alloc_max -> Z.max capu (zlen u + zlen (t ++ z)) + 1 <= alloc_max ->
  exists s' e, str_replace dbg (lf s) s (T "%") (T "%%") = Ok s' /\ str_z s' = Ok e /\
    exists d', (let* y := format (e ++ f) args in str_appendf dbg d y) = Ok d' /\ srep (u ++ t ++ z) (Z.max capu (zlen u + zlen (t ++ z))) d'.
Proof.
  intros dbg t cap s u capu d f args z R Rd Ez Oz A Ad.
  assert (zlen (doubled 37 t) <= 2 * zlen t) as Ld.
  { clear. induction t as [|c t IH]; [reflexivity|]. unfold doubled. cbn [flat_map]. fold (doubled 37 t). destruct (c =? 37); unfold zlen in *; rewrite app_length; cbn [List.length]; lia. }
  destruct (replace_each dbg t cap s 37 (T "%%") R) as (s' & cap' & E & R'); [discriminate|apply Forall_forall; intros x Hx; vm_compute in Hx; unfold okc; repeat destruct Hx as [<-|Hx]; lia || contradiction|unfold doubled in Ld; unfold each; change (T "%%") with [37; 37]; lia|].
  exists s', (doubled 37 t). split; [exact E|]. split; [exact (z_ok _ _ _ R')|].
  assert (format (doubled 37 t ++ f) args = Ok (t ++ z)) as F.
  { change args with ([] ++ args). rewrite (C178_append (doubled 37 t) f [] args (map Chr t)).
    - rewrite format_doubled, Ez. reflexivity.
    - apply parse_doubled.
    - unfold want. clear. induction t as [|c t IH]; [reflexivity|]. exact IH. }
  rewrite F. cbn [bind]. apply appendf_ok; [exact Rd| |exact Ad]. apply Forall_app. split; [exact (r_ok _ _ _ R)|exact Oz].
Qed.
Print Assumptions C232_escape.
Example C232_example :
  on "100% of %d" (fun s => let* s := str_replace true (lf s) s (T "%") (T "%%") in let* e := str_z s in
    let* y := format (e ++ T ": %d") [A32 7] in Ok (e, y)) = Ok (T "100%% of %%d", T "100% of %d: 7").
Proof. vm_compute. reflexivity. Qed.

(** ** C233 Replacing single bytes *)
(** vt_str_replace of a text of one byte acts on each byte of the string. *)
Theorem C233_each :
  forall dbg t cap s c r, srep t cap s -> r <> [] -> oks r -> Z.max cap (zlen (flat_map (fun x => if x =? c then r else [x]) t)) + 1 <= alloc_max ->
  exists s' cap', str_replace dbg (lf s) s [c] r = Ok s' /\ srep (flat_map (fun x => if x =? c then r else [x]) t) cap' s'.
Proof. exact replace_each. Qed.
Print Assumptions C233_each.
(** Doubling a byte and halving it again gives every text back. *)
Theorem C233_double :
  forall dbg t cap s c, srep t cap s -> okc c -> zlen t + zlen (flat_map (fun x => if x =? c then [c; c] else [x]) t) + cap + 1 <= alloc_max ->
  exists s1 s2 cap1 cap2, str_replace dbg (lf s) s [c] [c; c] = Ok s1 /\ srep (flat_map (fun x => if x =? c then [c; c] else [x]) t) cap1 s1 /\
    str_replace dbg (lf s1) s1 [c; c] [c] = Ok s2 /\ srep t cap2 s2.
Proof. exact double_halve. Qed.
Print Assumptions C233_double.
Example C233_example :
  on "a''b'" (fun s => let* s := str_replace true (lf s) s (T "'") (T "''") in let* y := str_z s in let* s := str_replace true (lf s) s (T "''") (T "'") in let* z := str_z s in Ok (y, z)) =
    Ok (T "a''''b''", T "a''b'") /\
  on "a.b" (fun s => txt (str_replace true (lf s) s (T ".") (T "..."))) = Ok (T "a...b").
Proof. split; vm_compute; reflexivity. Qed.
