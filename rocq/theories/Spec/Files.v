(** Files on disk: the layout of an entry file, lines, directory contents. *)
From Coq Require Import String List Ascii NArith Bool Arith.
From Verif.Model Require Import Py Storage.
Import ListNotations.
Local Open Scope list_scope.

(** A text line: no line feed except one at its end. *)
Definition line_of (l : str) : Prop := exists b, l = b ++ [ascii_of_N 10] /\ ~ In (ascii_of_N 10) b.

(** [l] starts with [p]. *)
Definition begins (p : string) (l : str) : Prop := exists r, l = list_ascii_of_string p ++ r.

(** A line between entries or subentries: ENTRY, ENDENTRY, NOSUBENT. *)
Definition frame_line (l : str) : Prop :=
  begins "ENTRY" l \/ begins "ENDENTRY" l \/ begins "NOSUBENT" l.

(** The lines of one subentry: SUBENT, then lines with no special start, then ENDSUBENT. *)
Definition subentry_block (b : list str) : Prop :=
  exists first mid last, b = first :: mid ++ [last] /\
    begins "SUBENT" first /\ begins "ENDSUBENT" last /\
    Forall (fun l => ~ frame_line l /\ ~ begins "SUBENT" l /\ ~ begins "ENDSUBENT" l) mid.

(** An entry file: frame lines and subentry blocks in any order; [bs] are its blocks. *)
Inductive entry_file : list str -> list (list str) -> Prop :=
| ef_nil : entry_file [] []
| ef_frame : forall l ls bs, frame_line l -> entry_file ls bs -> entry_file (l :: ls) bs
| ef_block : forall b ls bs, subentry_block b -> entry_file ls bs ->
    entry_file (b ++ ls) (b :: bs).

(** The accession number of a block: columns 15 to 22 of its text without blanks around. *)
Definition block_number (b : list str) : str := strip (firstn 8 (skipn 14 (concat b))).

(** The files of a directory tree, as (directory/file, bytes); None when something in it
    cannot be read. *)
Fixpoint all_files (sd : str) (fs : subdir) : option (list (str * str)) :=
  match fs with
  | [] => Some []
  | (n, Some c) :: fs' => match all_files sd fs' with
                          | Some l => Some ((sd ++ "/"%char :: n, c) :: l) | None => None end
  | (_, None) :: _ => None
  end.
Fixpoint tree_files (t : dbtree) : option (list (str * str)) :=
  match t with
  | [] => Some []
  | (sd, Some fs) :: t' => match all_files sd fs, tree_files t' with
                           | Some l, Some l' => Some (l ++ l') | _, _ => None end
  | (_, None) :: _ => None
  end.
Definition disk_files (t : option dbtree) : option (list (str * str)) :=
  match t with Some t => tree_files t | None => None end.

(** Names that occur in a tree, readable or not. *)
Definition mentions (t : option dbtree) (k : str) : Prop :=
  exists t' sd fs n c, t = Some t' /\ In (sd, Some fs) t' /\ In (n, c) fs /\ k = sd ++ "/"%char :: n.

(** The bytes of a text file and the lines that text mode reads from it: each line ends in
    LF or CR LF on disk and in LF in memory; the last one may be unterminated. *)
Inductive stored : str -> list str -> Prop :=
| st_nil : stored [] []
| st_last : forall b, b <> [] -> ~ In (ascii_of_N 10) b -> ~ In (ascii_of_N 13) b -> stored b [b]
| st_line : forall b eol rest ls, ~ In (ascii_of_N 10) b -> ~ In (ascii_of_N 13) b ->
    eol = [ascii_of_N 10] \/ eol = [ascii_of_N 13; ascii_of_N 10] ->
    stored rest ls -> stored (b ++ eol ++ rest) ((b ++ [ascii_of_N 10]) :: ls).

(** An archive that delivers every part of the database and finishes each of them, and does
    not itself contain the tag file. *)
Definition complete_archive (members : list (dbname * bool)) : Prop :=
  (forall b, ~ In (Tag, b) members) /\
  forall n, n <> Tag -> exists before after,
    members = before ++ (n, true) :: after /\ forall b, ~ In (n, b) after.
