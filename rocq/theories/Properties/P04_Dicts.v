(** Properties C55-C59: names of nuclei, element table, dictionaries, reference years. *)
From Coq Require Import String List Ascii NArith ZArith Bool Arith.
From Verif.Model Require Import Py Dicts Particle.
From Verif.Spec Require Import Text Nuclear.
From Verif.Proofs Require Import StrLemmas NumLemmas IntLemmas DictLemmas.
Import ListNotations.
Local Open Scope list_scope.

(** C55 *)
Theorem C55_endlZA_unambiguous : forall Z1 s1 A1 Z2 s2 A2,
  (Z1 < 1000)%N -> (A1 < 1000)%N -> (Z2 < 1000)%N -> (A2 < 1000)%N ->
  endlZAStyle (PNucleus (n_to_str Z1) s1 (n_to_str A1)) = endlZAStyle (PNucleus (n_to_str Z2) s2 (n_to_str A2)) ->
  Z1 = Z2 /\ A1 = A2.
Proof. exact endlZA_numbers. Qed.
Print Assumptions C55_endlZA_unambiguous.

(** The same for ground states and isomers alike, with Z and A as texts of at most three digits
    (leading zeros allowed): the name determines Z and A. *)
Theorem C55_endlZA_texts : forall p q z a z' a',
  nucleus_name p = Some (digits_text z, digits_text a) ->
  nucleus_name q = Some (digits_text z', digits_text a') ->
  is_digits z -> is_digits a -> is_digits z' -> is_digits a' ->
  1 <= length z <= 3 -> 1 <= length a <= 3 -> 1 <= length z' <= 3 -> 1 <= length a' <= 3 ->
  endlZAStyle p = endlZAStyle q -> getZ p = getZ q /\ getA p = getA q.
Proof. exact endlZA_names. Qed.
Print Assumptions C55_endlZA_texts.

(** The name determines the isomeric states too: ground state, metastable states and sums of
    states all have different names. *)
Theorem C55_endlZA_states : forall p q z a z' a',
  nucleus_name p = Some (digits_text z, digits_text a) ->
  nucleus_name q = Some (digits_text z', digits_text a') ->
  is_digits z -> is_digits a -> is_digits z' -> is_digits a' ->
  1 <= length z <= 3 -> 1 <= length a <= 3 -> 1 <= length z' <= 3 -> 1 <= length a' <= 3 ->
  Forall state_number (nucleus_states p) -> Forall state_number (nucleus_states q) ->
  endlZAStyle p = endlZAStyle q -> nucleus_states p = nucleus_states q.
Proof. exact endlZA_states. Qed.
Print Assumptions C55_endlZA_states.

Example C55_example :
  endlZAStyle (PNucleus (n_to_str 92) (lit "U") (n_to_str 235)) = Ok (Some (lit "za092235")) /\
  endlZAStyle (PIsomer (n_to_str 95) (lit "Am") (n_to_str 242) [lit "1"]) = Ok (Some (lit "za095242m")) /\
  endlZAStyle (PIsomer (n_to_str 95) (lit "Am") (n_to_str 242) [lit "0"; lit "2"]) = Ok (Some (lit "za095242gm2")) /\
  Forall state_number (nucleus_states (PIsomer (n_to_str 95) (lit "Am") (n_to_str 242) [lit "0"; lit "2"])).
Proof.
  split; [vm_compute; reflexivity|]. split; [vm_compute; reflexivity|]. split; [vm_compute; reflexivity|].
  constructor; [|constructor; [|constructor]]; [exists [0%N]|exists [2%N]];
    (split; [reflexivity|]; split; [repeat constructor|discriminate]).
Qed.

(** The bound matters: (1, 1) with four-digit Z or A collides. *)
Theorem C55_beyond_bound_refuted : exists Z1 A1 Z2 A2, (Z1, A1) <> (Z2, A2) /\
  endlZAStyle (PNucleus (n_to_str Z1) (lit "X") (n_to_str A1)) = endlZAStyle (PNucleus (n_to_str Z2) (lit "X") (n_to_str A2)).
Proof. exists 1001%N, 1000%N, 100%N, 11000%N. split; [discriminate|vm_compute; reflexivity]. Qed.
Print Assumptions C55_beyond_bound_refuted.

(** C56 *)
Theorem C56_symbols_inverse : forall z s, endl_ZSymbol z = Some s <-> endl_SymbolZ s = Some z.
Proof. exact symbols_inverse. Qed.
Print Assumptions C56_symbols_inverse.

Theorem C56_known_charges : forall z, (exists s, endl_ZSymbol z = Some s) <-> (0 <= z < 119)%Z.
Proof. exact ZSymbol_known. Qed.
Print Assumptions C56_known_charges.

Theorem C56_round_trip : forall z, (0 <= z < 119)%Z ->
  exists s, endl_ZSymbol z = Some s /\ endl_SymbolZ s = Some z.
Proof.
  exact (fun z H => match proj2 (ZSymbol_known z) H with
                    | ex_intro _ s E => ex_intro _ s (conj E (proj1 (symbols_inverse z s) E)) end).
Qed.
Print Assumptions C56_round_trip.

Example C56_example : endl_ZSymbol 92 = Some (lit "U") /\ endl_SymbolZ (lit "U") = Some 92%Z /\
  endl_ZSymbol 119 = None /\ endl_ZSymbol (-1) = None /\ endl_SymbolZ (lit "u") = None.
Proof. repeat split; vm_compute; reflexivity. Qed.

(** C57 *)
Theorem C57_same_dictionary : forall n name, In (n, name) DictionaryNames ->
  getDictionaryName (DInt n) = Some name /\ getDictionaryIndex (DName name) = Some n /\
  getDictionaryFilename (DInt n) = getDictionaryFilename (DName name) /\
  forall dir, server_getDictionary dir (DInt n) = server_getDictionary dir (DName name).
Proof. exact dictionary_lookup. Qed.
Print Assumptions C57_same_dictionary.

Theorem C57_inverse : forall n name,
  getDictionaryName (DInt n) = Some name <-> getDictionaryIndex (DName name) = Some n.
Proof. exact dictionary_inverse. Qed.
Print Assumptions C57_inverse.

Theorem C57_different_files :
  NoDup (map (fun i => getDictionaryFilename (DInt (fst i))) DictionaryNames).
Proof. exact dict_files_distinct. Qed.
Print Assumptions C57_different_files.

(** The file is the one the dictionary has on disk: its number with two digits. *)
Theorem C57_filenames : forall n name, In (n, name) DictionaryNames ->
  exists a b, is_digits [a; b] /\ Z.of_N (value10 [a; b]) = n /\
    getDictionaryFilename (DInt n) = Some (lit "dict" ++ digits_text [a; b] ++ lit ".txt").
Proof. exact dict_filenames. Qed.
Print Assumptions C57_filenames.

(** Anything else is refused with a TypeError (never a silent None). *)
Theorem C57_unknown : forall x,
  (forall n name, In (n, name) DictionaryNames -> x <> DInt n /\ x <> DName name) ->
  getDictionaryName x = None /\ getDictionaryIndex x = None /\ getDictionaryFilename x = None /\
  forall dir, server_getDictionary dir x = Raise TypeError.
Proof. exact dictionary_unknown. Qed.
Print Assumptions C57_unknown.

(** The table of all dictionaries agrees with the single lookups. *)
Theorem C57_all_dictionaries : forall dir m, getAllDictionaries dir = Ok m ->
  forall name d, dget str_eqb name m = Some d <-> server_getDictionary dir (DName name) = Ok (Some d).
Proof. exact all_dictionaries. Qed.
Print Assumptions C57_all_dictionaries.

Example C57_example : In (33%Z, lit "Particles") DictionaryNames /\
  getDictionaryFilename (DName (lit "Particles")) = Some (lit "dict33.txt") /\
  getDictionaryFilename (DInt 3) = Some (lit "dict03.txt") /\
  getDictionaryFilename (DName (lit "particles")) = None.
Proof. split; [vm_compute; tauto|]. repeat split; vm_compute; reflexivity. Qed.

(** C58 *)
Theorem C58_getDictionary_slices : forall text title l1 l2 body breaks,
  readlines text = title :: l1 :: l2 :: body ->
  count_line (S (length breaks)) l1 -> breaks_line breaks l2 -> breaks <> [] -> ascending 0 breaks ->
  exists d, getDictionary (Some text) = Ok (Some d) /\
    forall k f, dget str_eqb k d = Some f <-> last_definition breaks body k f.
Proof. exact getDictionary_spec. Qed.
Print Assumptions C58_getDictionary_slices.

(** The pieces cover the line, so nothing of it is lost. *)
Theorem C58_pieces_cover : forall breaks line, concat (pieces breaks line) = line.
Proof. exact concat_pieces. Qed.
Print Assumptions C58_pieces_cover.

Definition C58_file : str :=
  lit "Title = ""x""" ++ nl :: lit "NumFields = 3" ++ nl :: lit "FieldBreaks = [ 4, 9 ]" ++ nl ::
  lit "AB  one  uno" ++ nl :: nl :: lit "CD  two  dos" ++ nl :: lit "AB  ONE" ++ [nl].
Example C58_example :
  getDictionary (Some C58_file)
  = Ok (Some [(lit "AB", [lit "ONE"; []]); (lit "CD", [lit "two"; lit "dos"])]) /\
  exists title l1 l2 body, readlines C58_file = title :: l1 :: l2 :: body /\
    count_line 3 l1 /\ breaks_line [4; 9] l2 /\ ascending 0 [4; 9].
Proof.
  split; [vm_compute; reflexivity|].
  do 4 eexists. split; [reflexivity|]. split; [|split].
  - exists (lit "NumFields "), (lit " 3" ++ [nl]). split; [reflexivity|].
    exists [" "%char], [3%N], [nl]. repeat split; try (repeat constructor; vm_compute; tauto). discriminate.
  - exists (lit "FieldBreaks "), [" "%char], [lit " 4"; lit " 9 "], [nl]. split; [reflexivity|].
    split; [repeat constructor; vm_compute; tauto|]. split; [repeat constructor; vm_compute; tauto|].
    constructor; [|constructor; [|constructor]].
    + exists [" "%char], [4%N], []. repeat split; try (repeat constructor; vm_compute; tauto). discriminate.
    + exists [" "%char], [9%N], [" "%char]. repeat split; try (repeat constructor; vm_compute; tauto). discriminate.
  - cbn [ascending]. repeat split; repeat constructor.
Qed.

(** C59 *)
Theorem C59_year_of_full_dates : forall ds, is_digits ds -> In (length ds) [4; 6; 8] ->
  firstn 2 ds = [1; 9]%N \/ firstn 2 ds = [2; 0]%N ->
  parseX4Year (digits_text ds) = Ok (digits_text (firstn 4 ds)).
Proof. exact year_century. Qed.
Print Assumptions C59_year_of_full_dates.

Theorem C59_year_of_short_dates : forall ds, is_digits ds -> In (length ds) [2; 4; 6; 8] ->
  (length ds = 2 \/ firstn 2 ds <> [1; 9]%N /\ firstn 2 ds <> [2; 0]%N) ->
  parseX4Year (digits_text ds)
  = Ok ((if (10 <? value10 (firstn 2 ds))%N then lit "19" else lit "20") ++ digits_text (firstn 2 ds)).
Proof. exact year_short. Qed.
Print Assumptions C59_year_of_short_dates.

Theorem C59_four_digits : forall ds, is_digits ds -> In (length ds) [2; 4; 6; 8] ->
  exists a b, parseX4Year (digits_text ds) = Ok (lit "19" ++ digits_text [a; b]) \/
              parseX4Year (digits_text ds) = Ok (lit "20" ++ digits_text [a; b]).
Proof. exact year_four. Qed.
Print Assumptions C59_four_digits.

(** Other lengths come back as they are. *)
Theorem C59_other_lengths_unchanged : forall ds, is_digits ds -> ds <> [] -> ~ In (length ds) [2; 4; 6; 8] ->
  parseX4Year (digits_text ds) = Ok (digits_text ds).
Proof. exact year_other. Qed.
Print Assumptions C59_other_lengths_unchanged.

Theorem C59_other_lengths_refuted : exists ds, is_digits ds /\ ds <> [] /\
  parseX4Year (digits_text ds) = Ok (digits_text ds) /\ length ds <> 4.
Proof. exists [1; 9; 8]%N. repeat split; try discriminate. repeat constructor. Qed.
Print Assumptions C59_other_lengths_refuted.

Theorem C59_closing_brackets_ignored : forall s, parseX4Year s = parseX4Year (replace_char ")"%char [] s).
Proof. exact year_parens. Qed.
Print Assumptions C59_closing_brackets_ignored.

Theorem C59_junk_rejected : forall s c, In c s -> c <> ")"%char -> is_digit_py c = false ->
  parseX4Year s = Raise TypeError.
Proof. exact year_junk. Qed.
Print Assumptions C59_junk_rejected.

Example C59_example :
  parseX4Year (lit "198411)") = Ok (lit "1984") /\ parseX4Year (lit "8411") = Ok (lit "1984") /\
  parseX4Year (lit "05") = Ok (lit "2005") /\ parseX4Year (lit "19840211") = Ok (lit "1984") /\
  parseX4Year (lit "198") = Ok (lit "198") /\ parseX4Year (lit "84-11") = Raise TypeError.
Proof. repeat split; vm_compute; reflexivity. Qed.
