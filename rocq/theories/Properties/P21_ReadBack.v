(** Property C62, what does survive: a printed subentry has its sections in order, and they are
    read back as they were. *)
From Coq Require Import String List Ascii NArith ZArith Bool Arith Sorted.
From Verif.Model Require Import Py PyFloat Dicts Particle Reaction Field Section Entry Pyparsing Grammars Shipped.
From Verif.Spec Require Import Text Exfor Codes Document ReadBack.
From Verif.Proofs Require Import StrLemmas BibLemmas DocumentLemmas DocumentCheck TableBackLemmas.
Import ListNotations.
Local Open Scope string_scope.
Local Open Scope list_scope.
Local Open Scope nat_scope.

(** C62.  A subentry is printed as a SUBENT line, the printed BIB, COMMON and DATA sections, as
    far as there are, and an ENDSUBENT line. *)
Theorem C62_layout : forall e text s t, X4SubEntry e text = Ok s -> subentry_repr s = Ok t ->
  exists a rs, s_accnum s = Some a /\
    Forall2 (fun k r => exists x, dget str_eqb k (s_dict s) = Some x /\ section_repr x = Ok r)
            (filter (fun k => smem k (dkeys (s_dict s))) [tx "BIB"; tx "COMMON"; tx "DATA"]) rs /\
    t = tx "SUBENT     " ++ a ++ repeat " "%char (11 - length a) ++ [nl] ++ concat (map (fun r => r ++ [nl]) rs) ++ tx "ENDSUBENT  ".
Proof. exact subentry_layout. Qed.
Print Assumptions C62_layout.

(** The sections are read back exactly: keywords, texts, pointers, parsed reactions, authors,
    references and institutes of the BIB section, and headings, units, cells and numbers of the
    tables. *)
Theorem C62_sections_read_back : forall e text s, X4SubEntry e text = Ok s -> sections_named text -> s_accnum s <> None ->
  (forall b, has_section "BIB" text b -> plain_bib b) ->
  (forall k d, dget str_eqb k (s_dict s) = Some (SData d) -> plain_table d) ->
  exists t s', subentry_repr s = Ok t /\ X4SubEntry e t = Ok s' /\
    forall k, dget str_eqb k (s_dict s') = dget str_eqb k (s_dict s).
Proof. exact subentry_again. Qed.
Print Assumptions C62_sections_read_back.

(** A subentry with sections out of order, pointers, authors and a table. *)
Definition back_text : str := join [nl] (map lit
  ["SUBENT        10001002   19700101";
   "DATA                 3          2";
   "EN         DATA      1DATA      2";
   "MEV        MB         MB         ";
   "1.0        100.       4.6+02     ";
   "2.0                   0.2        ";
   "ENDDATA              4";
   "BIB                  3          6";
   "AUTHOR     (A.B.Smith,";
   "           C.Miller Jr)";
   "REACTION  1(26-FE-56(N,2N)26-FE-55,,SIG)  measured";
   "            by activation";
   "          2(26-FE-56(N,P)25-MN-56,,SIG)";
   "STATUS     .Tabulated in the paper";
   "ENDBIB               6";
   "ENDSUBENT           13"]).
Definition back_env : env := mkEnv (x4grammars shipped) [] [] [] 20.
Definition back_bib : list str := match lastb (keywordb (tx "BIB")) (sections_in back_text) with Some b => b | None => [] end.

Example C62_sections_example : exists s, X4SubEntry back_env back_text = Ok s /\ sections_named back_text /\ s_accnum s <> None /\
  (forall b, has_section "BIB" back_text b -> plain_bib b) /\
  (forall k d, dget str_eqb k (s_dict s) = Some (SData d) -> plain_table d) /\
  map fst (s_dict s) = [tx "DATA"; tx "BIB"].
Proof.
  destruct (X4SubEntry back_env back_text) as [s|] eqn:E; [|vm_compute in E; discriminate].
  exists s. split; [reflexivity|]. split; [apply sections_namedb; vm_compute; reflexivity|].
  assert (D : match X4SubEntry back_env back_text with
              | Ok s => s_accnum s = Some (tx "10001002") /\ map fst (s_dict s) = [tx "DATA"; tx "BIB"] /\
                        match s_dict s with (_, SData d) :: (_, SBib _) :: _ =>
                          d_numcols d = 3%Z /\ d_numrows d = 2%Z /\ hd [] (d_labels d) = tx "EN" /\ hd [] (d_units d) = tx "MEV"
                        | _ => False end
              | Raise _ => False end).
  { vm_compute. auto 10. }
  rewrite E in D. destruct D as (D1 & D2 & D3). split; [congruence|]. split; [|split; [|exact D2]].
  - intros b (lines & bs & L & SE & pre & post & Q & K & N).
    assert (BS : bs = sections_in back_text) by (unfold sections_in; rewrite (lines_split _ _ L); symmetry; now apply sections_chunkify).
    assert (B : b = back_bib).
    { assert (exists d, sections_in back_text = [d; back_bib] /\ keywordb (tx "BIB") d = false) as (d & SI & KD)
        by (eexists; split; vm_compute; reflexivity).
      rewrite BS, SI in Q. destruct pre as [|p [|p' pre]].
      - injection Q as <- _. apply keyword_iff in K. congruence.
      - now injection Q.
      - apply (f_equal (@length _)) in Q. cbn in Q. rewrite app_length in Q. cbn in Q. Lia.lia. }
    subst b. exists (bib_chunkify back_bib), [tx "AUTHOR"; tx "REACTION"; tx "STATUS"]. split.
    { apply fields_ok; [vm_compute; reflexivity|]. exists (nth 1 back_bib []). split; [vm_compute; auto|].
      intros H. apply is_frame_iff in H. vm_compute in H. discriminate. }
    split; [repeat (apply Forall2_cons; [apply keyword_iff; vm_compute; reflexivity|]); apply Forall2_nil|].
    split; [repeat (constructor; [vm_compute; intuition discriminate|]); constructor|].
    split; [repeat (apply Forall_cons; [intros (r & R); discriminate|]); constructor|].
    split.
    { assert (P : forall n, n < 3 -> pointers_ascending (nth n (bib_chunkify back_bib) [])).
      { intros [|[|[|n]]] H; try Lia.lia; unfold pointers_ascending; vm_compute; repeat constructor. }
      apply Forall_forall. intros f I. apply (In_nth _ _ []) in I. destruct I as (n & H & <-). apply P. exact H. }
    split; [|vm_compute; reflexivity].
    intros f I K' M. assert (F : f = nth 0 (bib_chunkify back_bib) []).
    { apply (In_nth _ _ []) in I. destruct I as (n & H & <-). destruct n as [|[|[|n]]]; [reflexivity| | |exfalso; change (S (S (S n)) < 3) in H; Lia.lia];
        apply keyword_iff in K'; vm_compute in K'; discriminate. }
    subst f. destruct M as (l & J & [M|M]); apply MonitorLemmas.contains_intro in M; vm_compute in J;
      repeat (destruct J as [<-|J]; [vm_compute in M; discriminate|]); destruct J.
  - intros k d G. destruct (s_dict s) as [|[k1 [?|d1]] [|[k2 [b2|?]] rest]] eqn:Q; try contradiction.
    cbn [map fst] in D2. injection D2 as -> -> R. destruct rest; [|discriminate]. cbn [dget] in G.
    clear - G D3. assert (G1 : d1 = d) by (repeat match type of G with context [if ?b then _ else _] => destruct b end; congruence). subst d1.
    destruct D3 as (C1 & C2 & C3 & C4). unfold plain_table. rewrite C1, C2, C3, C4.
    split; [split; discriminate|]. split; [split; [discriminate|reflexivity]|]. split; intros (r & R'); discriminate.
Qed.
