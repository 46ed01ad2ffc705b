(** Headers, legends and citations of entries and data sets.  Refers to the types of the model, to the
    year of a date (C41), and to what is shown of single fields (C96). *)
From Coq Require Import String List Ascii NArith ZArith Bool Arith.
From Verif.Model Require Import Py Dicts Particle Reaction Field Section Columns Dataset Print.
From Verif.Spec Require Import Text Exfor Codes Names References Document WellWritten ReadBack Shown.
Import ListNotations.
Local Open Scope string_scope.
Local Open Scope list_scope.
Local Open Scope nat_scope.

(** ** What BIB sections say *)

(** The field of a BIB section that counts: the last with the keyword. *)
Definition has_field (kw : string) (section : list (list ascii)) (fld : list (list ascii)) : Prop :=
  exists fs, fields section fs /\ last_such (field_keyword (tx kw)) fs fld.
(** Of several BIB sections, the last that has such a field counts. *)
Definition stating (kw : string) (sections : list (list (list ascii))) (fld : list (list ascii)) : Prop :=
  exists section, last_such (fun s => exists f, has_field kw s f) sections section /\ has_field kw section fld.
Definition silent (kw : string) (sections : list (list (list ascii))) : Prop :=
  Forall (fun s => ~ exists f, has_field kw s f) sections.

(** The authors of a field, in title case; none, if they are "not given". *)
Definition authors_named (fld : list (list ascii)) (l : list (list ascii)) : Prop :=
  (author_missing fld -> l = []) /\
  (~ author_missing fld -> exists nss,
     Forall2 (fun p names => exists ls parts, pointer_lines fld p ls /\ Forall2 trimmed ls parts /\ author_list names (concat parts))
             (appearing (marks " " fld)) nss /\
     l = map title (concat nss)).
(** The first reference of a field: of its first pointer. *)
Definition first_reference (fld : list (list ascii)) (r : ref) : Prop :=
  exists p ps ls rs, marks " " fld = p :: ps /\ pointer_lines fld p ls /\ reference_lines ls (r :: rs).

Record header := mkHeader {
  h_authors : list (list ascii);
  h_title : list ascii;
  h_year : list ascii;
  h_institute : list ascii;
  h_reference : list ascii;
  h_date : option (list ascii) }.
(** What a header takes from BIB sections.  What they do not say is the text None; of the authors its
    letters. *)
Record told (e : env) (sections : list (list (list ascii))) (h : header) : Prop := {
  told_authors : forall fld, stating "AUTHOR" sections fld -> authors_named fld (h_authors h);
  told_nobody : silent "AUTHOR" sections -> h_authors h = [tx "N"; tx "o"; tx "n"; tx "e"];
  told_title : forall fld, stating "TITLE" sections fld -> exists t, title_shown fld t /\ (t <> tx "None" -> h_title h = t);
  told_untitled : silent "TITLE" sections -> h_title h = tx "None";
  told_institute : forall fld, stating "INSTITUTE" sections fld -> institutes_shown e fld (h_institute h);
  told_nowhere : silent "INSTITUTE" sections -> h_institute h = tx "None";
  told_reference : forall fld, stating "REFERENCE" sections fld -> references_shown e fld (h_reference h) /\
    exists r, first_reference fld r /\ parseX4Year (digits_text (rt_date r)) = Ok (h_year h) /\ h_date h = Some (digits_text (rt_date r));
  told_unpublished : silent "REFERENCE" sections -> h_reference h = tx "None" /\ h_year h = tx "None" /\ h_date h = None }.

(** ** Texts *)

Definition header_text (h : header) (num : list ascii) : list ascii :=
  between [ascii_of_N 10]
    [ tx "#  Authors:   " ++ between (tx ", ") (h_authors h);
      tx "#  Title:     " ++ h_title h;
      tx "#  Year:      " ++ h_year h;
      tx "#  Institute: " ++ h_institute h;
      tx "#  Reference: " ++ h_reference h;
      tx "#  Subent:    " ++ num ].
(** Up to two authors; of more, the first two. *)
Definition cited (l : list (list ascii)) : list ascii :=
  match l with
  | a :: b :: _ :: _ => a ++ tx ", " ++ b ++ tx ", et al."
  | _ => between (tx ", ") l
  end.
Definition legend_text (h : header) : list ascii := tx "(" ++ h_year h ++ tx ") " ++ cited (h_authors h).
Definition citation_text (h : header) (num date : list ascii) : list ascii :=
  cited (h_authors h) ++ tx ", " ++ h_reference h ++ tx ";  Data taken from the EXFOR database, file EXFOR " ++ num ++
  tx " dated " ++ date ++ tx ", retrieved from the IAEA Nuclear Data Services website.".

(** The lines of a data set after that: the reaction with its remark, the monitors and, of angular and
    energy distributions, the frame of reference. *)
Definition set_lines (nm : names) (d : dataset) (t : list ascii) : Prop :=
  exists m remark s ms, ds_reaction d = Some (m, remark) /\ m_str nm m = Ok s /\
    (ds_monitor d = None -> ms = []) /\
    (forall l, ds_monitor d = Some l -> exists xs, Forall2 (fun x t => monitor_str nm x = Ok t) l xs /\
       ms = ascii_of_N 10 :: tx "#  Monitor(s): " ++ between (tx " ") xs) /\
    t = tx "#  Reaction:  " ++ s ++ tx " " ++ tree_str remark ++ ms ++
        match ds_class_of d, ds_frame d with
        | (AngularDist | EnergyDist), Some f => ascii_of_N 10 :: tx "#  Frame:     " ++ f
        | _, _ => []
        end.
(** All that is shown of the metadata of a data set. *)
Definition set_told (nm : names) (d : dataset) (h : header) (num : list ascii) : Prop :=
  meta_legend (ds_meta d) = legend_text h /\
  (h_date h = None -> meta_citation (ds_meta d) = Raise AttributeError) /\
  (forall date, h_date h = Some date -> meta_citation (ds_meta d) = Ok (citation_text h num date)) /\
  exists t, set_lines nm d t /\ strHeader nm d = Ok (header_text h num ++ ascii_of_N 10 :: t).
(** The data set of subentry [num] and pointer [p]: BIB sections of subentry 001 and of the subentry.
    Without one of its own, it goes by the number of subentry 001. *)
Definition told_set (e : env) (nm : names) (acc : list ascii) (raw : list (list ascii)) (k : str * option str * ascii) (d : dataset) : Prop :=
  exists num p text text1 b1 h, k = (acc, Some num, p) /\
    last_such (numbered num) raw text /\ last_such (numbered (acc ++ tx "001")) raw text1 /\ has_section "BIB" text1 b1 /\
    ((exists b, has_section "BIB" text b /\ told e [b1; b] h /\ set_told nm d h num) \/
     ((~ exists b, has_section "BIB" text b) /\ told e [b1] h /\ set_told nm d h (acc ++ tx "001"))).
