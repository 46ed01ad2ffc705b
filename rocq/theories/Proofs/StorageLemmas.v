From Coq Require Import String List Ascii NArith ZArith Bool Arith Lia.
From Verif.Model Require Import Py Utilities Sql Manager Storage.
From Verif.Spec Require Import Text Query Files.
From Verif.Proofs Require Import StrLemmas UtilLemmas ManagerLemmas.
Import ListNotations.
Local Open Scope list_scope.

(** ** reading lines *)

Lemma readlines_aux_last : forall b cur, ~ In nl b -> b <> [] \/ cur <> [] ->
  readlines_aux b cur = [rev cur ++ b].
Proof.
  induction b as [|c b IH]; intros cur N H; cbn [readlines_aux].
  - destruct cur; [destruct H; contradiction|]. now rewrite app_nil_r.
  - destruct (Ascii.eqb_spec c nl); [subst; exfalso; apply N; now left|].
    rewrite IH; [|intro; apply N; now right|right; discriminate]. cbn [rev]. now rewrite <- app_assoc.
Qed.

Lemma readlines_aux_line : forall b rest cur, ~ In nl b ->
  readlines_aux (b ++ nl :: rest) cur = (rev cur ++ b ++ [nl]) :: readlines_aux rest [].
Proof.
  induction b as [|c b IH]; intros rest cur N.
  - cbn [app readlines_aux]. rewrite Ascii.eqb_refl. reflexivity.
  - cbn [app readlines_aux]. destruct (Ascii.eqb_spec c nl); [subst; exfalso; apply N; now left|].
    rewrite IH; [|intro; apply N; now right]. cbn [rev]. now rewrite <- !app_assoc.
Qed.

Lemma universal_app : forall b rest, ~ In cr b -> universal_newlines (b ++ rest) = b ++ universal_newlines rest.
Proof.
  induction b as [|c b IH]; intros rest N; auto. cbn [app universal_newlines].
  destruct (Ascii.eqb_spec c cr); [subst; exfalso; apply N; now left|].
  rewrite IH; [reflexivity|]. intro; apply N; now right.
Qed.

Lemma universal_nl : forall rest, universal_newlines (nl :: rest) = nl :: universal_newlines rest.
Proof. reflexivity. Qed.
Lemma universal_crnl : forall rest, universal_newlines (cr :: nl :: rest) = nl :: universal_newlines rest.
Proof. reflexivity. Qed.

Lemma stored_lines : forall content ls, stored content ls -> readlines (universal_newlines content) = ls.
Proof.
  intros content ls H. induction H.
  - reflexivity.
  - rewrite <- (app_nil_r b), universal_app, app_nil_r by auto. unfold readlines.
    rewrite (app_nil_r b) in *. rewrite readlines_aux_last; auto.
  - rewrite universal_app by auto.
    assert (universal_newlines (eol ++ rest) = nl :: universal_newlines rest) as ->
      by (destruct H1 as [-> | ->]; reflexivity).
    unfold readlines in *. rewrite readlines_aux_line by auto. now rewrite IHstored.
Qed.

(** ** entry files *)

Lemma startswith_begins : forall l p, startswith l (lit p) = true <-> begins p l.
Proof.
  intros l p. unfold startswith, begins, lit. generalize (list_ascii_of_string p). intro q. revert l.
  induction q as [|c q IH]; intro l; cbn.
  - split; eauto.
  - destruct l as [|d l]; [split; [discriminate|intros (r & E); discriminate]|].
    rewrite andb_true_iff, IH, Ascii.eqb_eq. split.
    + intros (-> & r & ->). now exists r.
    + intros (r & E). injection E as -> ->. eauto.
Qed.

Lemma startswith_not : forall l p, ~ begins p l -> startswith l (lit p) = false.
Proof. intros l p N. destruct (startswith l (lit p)) eqn:E; auto. apply startswith_begins in E. contradiction. Qed.

Lemma step_frame : forall keep l result subent, frame_line l ->
  entry_step keep (result, subent) l = (result, subent).
Proof.
  intros keep l result subent H. unfold entry_step.
  destruct H as [(r & ->)|[(r & ->)|(r & ->)]]; reflexivity.
Qed.

Lemma step_first : forall keep l result subent, begins "SUBENT" l ->
  entry_step keep (result, subent) l = (result, l).
Proof. intros keep l result subent (r & ->). reflexivity. Qed.

Lemma step_last : forall keep l result subent, begins "ENDSUBENT" l ->
  entry_step keep (result, subent) l =
  (if keep (strip (slice (subent ++ l) 14 22)) then result ++ [subent ++ l] else result, []).
Proof. intros keep l result subent (r & ->). reflexivity. Qed.

Lemma step_mid : forall keep l result subent,
  ~ frame_line l /\ ~ begins "SUBENT" l /\ ~ begins "ENDSUBENT" l ->
  entry_step keep (result, subent) l = (result, subent ++ l).
Proof.
  intros keep l result subent (N1 & N2 & N3). unfold entry_step, frame_line in *.
  rewrite !startswith_not by tauto. reflexivity.
Qed.

Lemma fold_mid : forall keep mid result subent,
  Forall (fun l => ~ frame_line l /\ ~ begins "SUBENT" l /\ ~ begins "ENDSUBENT" l) mid ->
  fold_left (entry_step keep) mid (result, subent) = (result, subent ++ concat mid).
Proof.
  induction mid as [|l mid IH]; intros result subent H.
  - cbn. now rewrite app_nil_r.
  - inversion H; subst. cbn [fold_left]. rewrite step_mid by auto. rewrite IH by auto.
    cbn [concat]. now rewrite app_assoc.
Qed.

Lemma fold_block : forall keep b result subent, subentry_block b ->
  fold_left (entry_step keep) b (result, subent) =
  (if keep (block_number b) then result ++ [concat b] else result, []).
Proof.
  intros keep b result subent (f & mid & l & -> & Hf & Hl & Hm). cbn [fold_left].
  rewrite step_first by auto. rewrite fold_left_app, fold_mid by auto. cbn [fold_left].
  rewrite step_last by auto. unfold block_number, slice. cbn [concat].
  rewrite concat_app. cbn [concat]. rewrite app_nil_r, <- app_assoc. reflexivity.
Qed.

Lemma split_entry_spec : forall keep ls bs, entry_file ls bs ->
  split_entry keep ls = map (@concat ascii) (filter (fun b => keep (block_number b)) bs).
Proof.
  intros keep ls bs H. unfold split_entry.
  assert (forall result subent,
    fst (fold_left (entry_step keep) ls (result, subent)) =
    result ++ map (@concat ascii) (filter (fun b => keep (block_number b)) bs)) as K.
  { induction H; intros result subent.
    - cbn. now rewrite app_nil_r.
    - cbn [fold_left]. rewrite step_frame by auto. apply IHentry_file.
    - rewrite fold_left_app, fold_block by auto. rewrite IHentry_file.
      cbn [filter]. destruct (keep (block_number b)); [|reflexivity].
      cbn [map]. now rewrite <- app_assoc. }
  now rewrite K.
Qed.

Lemma factory_spec : forall (E : Type) (mk : list str -> res E) fs enum sel content ls bs,
  length enum = 5 -> fs (firstn 3 enum) enum = Some content -> stored content ls -> entry_file ls bs ->
  x4EntryFactory mk fs enum sel =
  mk (map (@concat ascii)
       (filter (fun b => match sel with None => true | Some l => smem (block_number b) l end) bs)).
Proof.
  intros E mk fs enum sel content ls bs L F S H. unfold x4EntryFactory. rewrite L. cbn [Nat.eqb negb].
  unfold slice. cbn [Nat.sub skipn]. rewrite F. cbn [of_option bind].
  rewrite (stored_lines _ _ S), (split_entry_spec _ ls bs) by auto. reflexivity.
Qed.

Lemma factory_bad_length : forall (E : Type) (mk : list str -> res E) fs enum sel,
  length enum <> 5 -> x4EntryFactory mk fs enum sel = Raise ValueError.
Proof.
  intros. unfold x4EntryFactory. destruct (Nat.eqb_spec (length enum) 5); [contradiction|reflexivity].
Qed.

(** A loop that stores one value per key, for distinct keys. *)
Lemma fold_dset : forall (A B : Type) (f : A -> str) (g : A -> res B) l acc,
  NoDup (dkeys acc ++ map f l) ->
  fold_res (fun result x => y <- g x ;; Ok (dset str_eqb (f x) y result)) l acc =
  (ys <- map_res g l ;; Ok (acc ++ combine (map f l) ys)).
Proof.
  intros A B f g. induction l as [|x l IH]; intros acc H; cbn [fold_res map_res bind].
  - cbn. now rewrite app_nil_r.
  - destruct (g x) as [y|e]; cbn [bind]; [|reflexivity].
    assert (~ In (f x) (dkeys acc)) as N.
    { cbn in H. apply NoDup_remove_2 in H. intro K. apply H. apply in_app_iff. auto. }
    rewrite (dset_fresh str_eqb str_eqb_eq) by auto. rewrite IH.
    + destruct (map_res g l); cbn [bind]; [|reflexivity]. cbn. now rewrite <- app_assoc.
    + unfold dkeys in *. rewrite map_app, <- app_assoc. cbn. exact H.
Qed.

Lemma map_res_Forall2 : forall (A B : Type) (f : A -> res B) l ys,
  map_res f l = Ok ys <-> Forall2 (fun x y => f x = Ok y) l ys.
Proof.
  intros A B f. induction l as [|x l IH]; intro ys; cbn.
  - split; [intro H; injection H as <-; constructor|intro H; inversion H; auto].
  - destruct (f x) as [y|e] eqn:E; cbn.
    + destruct (map_res f l) as [zs|e']; cbn.
      * split; intro H.
        -- injection H as <-. constructor; auto. now apply IH.
        -- inversion H; subst. rewrite E in H2. injection H2 as <-. apply IH in H4. now injection H4 as <-.
      * split; [discriminate|]. intro H. inversion H; subst. apply IH in H4. discriminate.
    + split; [discriminate|]. intro H. inversion H; subst. congruence.
Qed.

Lemma grouping_NoDup : forall P m, grouping P m -> NoDup (map fst m).
Proof. intros P m (G1 & _). now apply sorted_lt_NoDup. Qed.

Lemma query_NoDup : forall table c m, query table c = Ok m -> NoDup (map fst m).
Proof. intros table c m H. apply query_any in H. destruct H as (P & _ & G). eapply grouping_NoDup; eauto. Qed.

Lemma retrieve_eq : forall (E : Type) (mk : list str -> res E) table fs c m,
  query table c = Ok m ->
  retrieve mk table fs c =
  (ys <- map_res (fun kv => x4EntryFactory mk fs (fst kv) (Some (snd kv))) m ;;
   Ok (combine (map fst m) ys)).
Proof.
  intros E mk table fs c m Q. unfold retrieve. rewrite Q. cbn [bind].
  rewrite (fold_dset _ _ fst (fun kv => x4EntryFactory mk fs (fst kv) (Some (snd kv)))).
  - reflexivity.
  - cbn. eapply query_NoDup; eauto.
Qed.

Lemma retrieve_raw : forall table fs c m,
  query table c = Ok m ->
  (forall e l, In (e, l) m -> length e = 5 /\ exists content ls bs,
     fs (firstn 3 e) e = Some content /\ stored content ls /\ entry_file ls bs) ->
  exists r, retrieve (@Ok (list str)) table fs c = Ok r /\ map fst r = map fst m /\
    forall e l text content ls bs, In (e, l) m -> In (e, text) r ->
      fs (firstn 3 e) e = Some content -> stored content ls -> entry_file ls bs ->
      text = map (@concat ascii) (filter (fun b => smem (block_number b) l) bs).
Proof.
  intros table fs c m Q H. rewrite (retrieve_eq _ _ _ _ _ _ Q).
  pose proof (query_NoDup _ _ _ Q) as ND. clear Q.
  assert (exists ys, map_res (fun kv => x4EntryFactory (@Ok (list str)) fs (fst kv) (Some (snd kv))) m = Ok ys) as (ys & Y).
  { clear ND. induction m as [|[e l] m IH]; [eexists; reflexivity|].
    destruct IH as (ys & Y); [intros e0 l0 I0; apply (H e0 l0); now right|].
    destruct (H e l (or_introl eq_refl)) as (L & content & ls & bs & F & S & B).
    cbn [map_res fst snd]. rewrite (factory_spec _ _ _ _ _ _ _ _ L F S B). cbn [bind]. rewrite Y. cbn. eauto. }
  rewrite Y. cbn [bind]. eexists. split; [reflexivity|]. apply map_res_Forall2 in Y.
  assert (map fst (combine (map fst m) ys) = map fst m) as K.
  { clear - Y. induction Y; cbn; auto. now f_equal. }
  split; auto. intros e l text content ls bs I1 I2 F S B.
  clear K. induction Y as [|[e' l'] y m ys Hy Y IH]; [contradiction|].
  cbn in ND. inversion ND; subst. cbn in I2. destruct I1 as [I1|I1]; [injection I1 as -> ->|].
  - destruct I2 as [I2|I2]; [injection I2 as ->|].
    + cbn [fst snd] in Hy. destruct (H e l (or_introl eq_refl)) as (L & _).
      rewrite (factory_spec _ _ _ _ _ _ _ _ L F S B) in Hy. now injection Hy as <-.
    + exfalso. apply H2. apply in_combine_l in I2. exact I2.
  - destruct I2 as [I2|I2]; [injection I2 as -> ->|].
    + exfalso. apply H2. apply in_map_iff. exists (e, l). auto.
    + apply IH; auto. intros e0 l0 I0. apply (H e0 l0). now right.
Qed.

(** ** the in-memory manager *)

Lemma dict_step_bytes : forall l st b, dict_entry_step l st (PBytes b) = Raise TypeError.
Proof. intros l [r s] b. reflexivity. Qed.

Lemma dict_factory : forall (E : Type) (mk : list pytext -> res E) t enum sel c,
  length enum = 5 ->
  snd (x4DictionaryEntryFactory mk t enum sel c) =
  match snd (cache_getitem t (x4_path enum) c) with
  | Raise e => Raise e
  | Ok [] => mk []
  | Ok (_ :: _) => Raise TypeError
  end.
Proof.
  intros E mk t enum sel c L. unfold x4DictionaryEntryFactory. rewrite L. cbn [Nat.eqb negb].
  destruct (cache_getitem t (x4_path enum) c) as [c' r]. cbn [snd].
  destruct r as [[|x ls]|e]; reflexivity.
Qed.

Lemma cached_type_error : forall (E : Type) (mk : list pytext -> res E) table t cr c e l m x ls,
  query table cr = Ok ((e, l) :: m) -> length e = 5 ->
  snd (cache_getitem t (x4_path e) c) = Ok (x :: ls) ->
  snd (retrieve_cached mk table t cr c) = Raise TypeError.
Proof.
  intros E mk table t cr c e l m x ls Q L G. unfold retrieve_cached. rewrite Q. cbn [cached_entries].
  pose proof (dict_factory E mk t e (Some l) c L) as F. rewrite G in F.
  destruct (x4DictionaryEntryFactory mk t e (Some l) c) as [c' r]. cbn [snd] in F. subst r. reflexivity.
Qed.

Lemma cached_ok_empty : forall (E : Type) (mk : list pytext -> res E) t m acc c r,
  snd (cached_entries mk t m acc c) = Ok r ->
  forall e l, In (e, l) m -> exists c', snd (cache_getitem t (x4_path e) c') = Ok [].
Proof.
  intros E mk t. induction m as [|[e l] m IH]; intros acc c r H e' l' I; [contradiction|].
  cbn [cached_entries] in H.
  destruct (x4DictionaryEntryFactory mk t e (Some l) c) as [c' [y|ex]] eqn:F; [|discriminate].
  destruct I as [I|I]; [injection I as <- <-|eapply IH; eauto].
  exists c. destruct (Nat.eq_dec (length e) 5) as [L|L].
  - pose proof (dict_factory E mk t e (Some l) c L) as K. rewrite F in K. cbn [snd] in K.
    destruct (snd (cache_getitem t (x4_path e) c)) as [[|x ls]|ex]; congruence.
  - unfold x4DictionaryEntryFactory in F. destruct (Nat.eqb_spec (length e) 5); [contradiction|]. discriminate.
Qed.

Lemma cached_no_match : forall (E : Type) (mk : list pytext -> res E) (mk' : list str -> res E) table t fs cr c,
  query table cr = Ok [] ->
  snd (retrieve_cached mk table t cr c) = Ok [] /\ retrieve mk' table fs cr = Ok [].
Proof. intros. unfold retrieve_cached, retrieve. rewrite H. auto. Qed.

(** ** the cache *)

Lemma load_files_ok : forall sd fs d, match load_files sd fs d with
  | (d', Ok _) => exists l, all_files sd fs = Some l /\
                  d' = fold_left (fun d kc => dset str_eqb (fst kc) (readlines (snd kc)) d) l d
  | (d', Raise e) => all_files sd fs = None /\ e = OSError
  end.
Proof.
  intro sd. induction fs as [|[n [c|]] fs IH]; intro d; cbn.
  - exists []. auto.
  - specialize (IH (dset str_eqb (sd ++ "/"%char :: n) (readlines c) d)).
    destruct (load_files sd fs _) as [d' [u|e]].
    + destruct IH as (l & -> & ->). eexists. split; reflexivity.
    + destruct IH as (-> & ->). auto.
  - auto.
Qed.

Definition store_all (l : list (str * str)) (d : list (str * list str)) :=
  fold_left (fun d kc => dset str_eqb (fst kc) (readlines (snd kc)) d) l d.

Lemma load_dirs_ok : forall t d, match load_dirs t d with
  | (d', Ok _) => exists l, tree_files t = Some l /\ d' = store_all l d
  | (d', Raise e) => tree_files t = None /\ e = OSError
  end.
Proof.
  induction t as [|[sd [fs|]] t IH]; intro d; cbn [load_dirs tree_files].
  - exists []. auto.
  - pose proof (load_files_ok sd fs d) as F. destruct (load_files sd fs d) as [d' [u|e]].
    + destruct F as (l & -> & ->). specialize (IH (store_all l d)). unfold store_all in *.
      destruct (load_dirs t _) as [d'' [u'|e]].
      * destruct IH as (l' & -> & ->). eexists. split; [reflexivity|]. now rewrite fold_left_app.
      * destruct IH as (-> & ->). auto.
    + destruct F as (-> & ->). auto.
  - auto.
Qed.

Lemma store_all_get : forall l d k, NoDup (map fst l) ->
  dget str_eqb k (store_all l d) =
  match dget str_eqb k l with Some c => Some (readlines c) | None => dget str_eqb k d end.
Proof.
  induction l as [|[k' c] l IH]; intros d k ND; [reflexivity|].
  cbn in ND. inversion ND; subst. change (store_all ((k', c) :: l) d) with (store_all l (dset str_eqb k' (readlines c) d)).
  rewrite IH by auto. cbn [dget fst snd].
  destruct (str_eqb_spec k k') as [->|N].
  - rewrite (proj2 (dget_None str_eqb str_eqb_eq k' l)) by auto.
    apply (dget_dset_same str_eqb str_eqb_eq).
  - rewrite (dget_dset_other str_eqb str_eqb_eq) by auto. reflexivity.
Qed.

(** Keys stored by a load, even a failing one, are mentioned by the tree. *)
Lemma load_files_keys : forall sd fs d k, In k (dkeys (fst (load_files sd fs d))) ->
  In k (dkeys d) \/ exists n c, In (n, c) fs /\ k = sd ++ "/"%char :: n.
Proof.
  intro sd. induction fs as [|[n [c|]] fs IH]; intros d k H; cbn in H; auto.
  apply IH in H. destruct H as [H|(n' & c' & H & E)].
  - rewrite (dkeys_dset str_eqb) in H.
    destruct (dhas str_eqb (sd ++ "/"%char :: n) d); auto.
    apply in_app_iff in H. destruct H as [H|[H|[]]]; auto. right. exists n, (Some c). split; [now left|auto].
  - right. exists n', c'. split; [now right|auto].
Qed.

Lemma load_dirs_keys : forall t d k, In k (dkeys (fst (load_dirs t d))) ->
  In k (dkeys d) \/ mentions (Some t) k.
Proof.
  induction t as [|[sd [fs|]] t IH]; intros d k H; cbn in H; auto.
  pose proof (load_files_keys sd fs d k) as F. destruct (load_files sd fs d) as [d' [u|e]]; cbn [fst] in *.
  - apply IH in H. destruct H as [H|(t' & sd' & fs' & n & c & E & H1 & H2 & H3)].
    + destruct (F H) as [K|(n & c & K & E)]; auto. right. exists ((sd, Some fs) :: t), sd, fs, n, c.
      split; auto. split; [now left|auto].
    + injection E as <-. right. exists ((sd, Some fs) :: t), sd', fs', n, c. split; auto. split; [now right|auto].
  - destruct (F H) as [K|(n & c & K & E)]; auto. right. exists ((sd, Some fs) :: t), sd, fs, n, c.
    split; auto. split; [now left|auto].
Qed.

Definition last_loaded (c : cache) (files : list (str * str)) (old : str -> Prop) : Prop :=
  c_init c = true /\ forall k,
   (forall v, dget str_eqb k files = Some v -> dget str_eqb k (c_dict c) = Some (readlines v)) /\
   (dget str_eqb k files = None -> ~ old k -> dget str_eqb k (c_dict c) = None).

Lemma getitem_loaded : forall t k c, c_init c = true ->
  cache_getitem t k c = (c, of_option KeyError (dget str_eqb k (c_dict c))).
Proof. intros. unfold cache_getitem. now rewrite H. Qed.

Lemma run_loaded : forall h c, c_init c = true -> run_lookups h c = c.
Proof.
  induction h as [|[t k] h IH]; intros c H; auto. unfold run_lookups in *. cbn [fold_left fst snd].
  rewrite getitem_loaded by auto. now apply IH.
Qed.

Lemma load_fail : forall t k c, c_init c = false -> disk_files t = None ->
  let c' := fst (cache_getitem t k c) in
  c_init c' = false /\ snd (cache_getitem t k c) = Raise OSError /\
  forall x, In x (dkeys (c_dict c')) -> In x (dkeys (c_dict c)) \/ mentions t x.
Proof.
  intros t k c I D c'. subst c'. unfold cache_getitem. rewrite I. unfold load_cache.
  destruct t as [t|]; [|cbn; auto].
  pose proof (load_dirs_ok t (c_dict c)) as L. pose proof (load_dirs_keys t (c_dict c)) as K.
  destruct (load_dirs t (c_dict c)) as [d [u|e]].
  - destruct L as (l & L & _). cbn in D. congruence.
  - destruct L as (_ & ->). cbn in *. auto.
Qed.

Lemma load_succeeds : forall t k c files (old : str -> Prop), c_init c = false -> disk_files t = Some files ->
  NoDup (map fst files) -> (forall x, In x (dkeys (c_dict c)) -> old x) ->
  last_loaded (fst (cache_getitem t k c)) files old.
Proof.
  intros t k c files old I D ND O. unfold cache_getitem. rewrite I. unfold load_cache.
  destruct t as [t|]; [|discriminate]. cbn in D.
  pose proof (load_dirs_ok t (c_dict c)) as L. destruct (load_dirs t (c_dict c)) as [d [u|e]].
  - destruct L as (l & L & ->). rewrite D in L. injection L as <-. cbn [fst]. split; [reflexivity|].
    intro x. cbn [c_dict]. rewrite store_all_get by auto. split.
    + intros v ->. reflexivity.
    + intros -> N. apply (dget_None str_eqb str_eqb_eq). intro K. apply N. now apply O.
  - destruct L as (L & _). congruence.
Qed.

Lemma run_failing : forall h c, c_init c = false -> (forall t k, In (t, k) h -> disk_files t = None) ->
  c_init (run_lookups h c) = false /\
  forall x, In x (dkeys (c_dict (run_lookups h c))) ->
    In x (dkeys (c_dict c)) \/ exists t k, In (t, k) h /\ mentions t x.
Proof.
  induction h as [|[t k] h IH]; intros c I F; [cbn; auto|].
  unfold run_lookups in *. cbn [fold_left fst snd].
  destruct (load_fail t k c I (F t k ltac:(now left))) as (I' & _ & K).
  destruct (IH _ I' ltac:(intros; eapply F; right; eauto)) as (I'' & K').
  split; auto. intros x H. apply K' in H. destruct H as [H|(t' & k' & H & M)].
  - apply K in H. destruct H; auto. right. exists t, k. split; [now left|auto].
  - right. exists t', k'. split; [now right|auto].
Qed.

(** The history of lookups before the first readable disk. *)
Lemma cache_history : forall before t0 k0 after t k files,
  (forall t' k', In (t', k') before -> disk_files t' = None) ->
  disk_files t0 = Some files -> NoDup (map fst files) ->
  let c := run_lookups (before ++ (t0, k0) :: after) empty_cache in
  (forall content, In (k, content) files -> snd (cache_getitem t k c) = Ok (readlines content)) /\
  (~ In k (map fst files) -> (forall t' k', In (t', k') before -> ~ mentions t' k) ->
     snd (cache_getitem t k c) = Raise KeyError).
Proof.
  intros before t0 k0 after t k files HF H0 ND c.
  destruct (run_failing before empty_cache eq_refl HF) as (I & K).
  assert (last_loaded c files (fun x => exists t' k', In (t', k') before /\ mentions t' x)) as (L1 & L2).
  { subst c. unfold run_lookups in *. rewrite fold_left_app. cbn [fold_left fst snd].
    change (last_loaded (run_lookups after (fst (cache_getitem t0 k0 (run_lookups before empty_cache)))) files
      (fun x => exists t' k', In (t', k') before /\ mentions t' x)).
    assert (last_loaded (fst (cache_getitem t0 k0 (run_lookups before empty_cache))) files
      (fun x => exists t' k', In (t', k') before /\ mentions t' x)) as L.
    { apply load_succeeds; auto. intros x Hx. destruct (K x Hx) as [C|C]; [contradiction|auto]. }
    rewrite run_loaded; [exact L|]. apply L. }
  rewrite getitem_loaded by auto. cbn [snd]. destruct (L2 k) as [G1 G2]. split.
  - intros content H. rewrite (G1 content); [reflexivity|]. now apply (In_dget str_eqb str_eqb_eq).
  - intros N M. rewrite G2; [reflexivity| |].
    + now apply (dget_None str_eqb str_eqb_eq).
    + intros (t' & k' & H1 & H2). eapply M; eauto.
Qed.

Lemma cache_unreadable : forall h t k,
  (forall t' k', In (t', k') h -> disk_files t' = None) -> disk_files t = None ->
  snd (cache_getitem t k (run_lookups h empty_cache)) = Raise OSError.
Proof.
  intros h t k F D. destruct (run_failing h empty_cache eq_refl F) as (I & _).
  now destruct (load_fail t k _ I D) as (_ & H & _).
Qed.

(** ** download *)

Definition all_names := [Index; Errors; Coupled; Monitored; ReactionCount; Db; Tag].

Lemma dbname_eqb_eq : forall a b, dbname_eqb a b = true <-> a = b.
Proof. intros [] []; cbn; split; congruence. Qed.
Lemma dbname_eqb_refl : forall a, dbname_eqb a a = true.
Proof. now intros []. Qed.
Lemma put_same : forall n s d, put n s d n = s.
Proof. intros. unfold put. now rewrite dbname_eqb_refl. Qed.
Lemma put_other : forall n s d m, m <> n -> put n s d m = d m.
Proof.
  intros. unfold put. destruct (dbname_eqb m n) eqn:E; auto. apply dbname_eqb_eq in E. contradiction.
Qed.

Lemma run_ops_other : forall ops d n, (forall s, ~ In (Set_ n s) ops) -> fold_left run_op ops d n = d n.
Proof.
  induction ops as [|[m s] ops IH]; intros d n H; auto. cbn [fold_left run_op]. rewrite IH.
  - apply put_other. intros ->. apply (H s). now left.
  - intros s' K. apply (H s'). now right.
Qed.

Lemma absent_exist : forall d n, d n = Absent -> all_exist d = false.
Proof.
  intros d n H. destruct (all_exist d) eqn:E; auto. unfold all_exist in E. rewrite forallb_forall in E.
  specialize (E n). rewrite H in E. symmetry. apply E. destruct n; cbn; tauto.
Qed.

Lemma firstn_incl : forall (A : Type) n (l : list A) x, In x (firstn n l) -> In x l.
Proof. intros A n l x H. rewrite <- (firstn_skipn n l). apply in_app_iff. auto. Qed.

Lemma cleanup_names : forall d n s, In (Set_ n s) (cleanup_ops d) -> n <> Tag -> s = Absent \/ n = Db.
Proof.
  intros d n s H N. unfold cleanup_ops in H. apply in_flat_map in H. destruct H as (m & _ & H).
  destruct (d m), m; cbn in H; repeat destruct H as [H|H]; try contradiction; injection H as <- <-; auto.
Qed.

(** The index goes first. *)
Lemma cleanup_index : forall d n, 1 <= n <= length (cleanup_ops d) ->
  fold_left run_op (firstn n (cleanup_ops d)) d Index = Absent.
Proof.
  intros d n H.
  assert (exists rest, cleanup_ops d = (match d Index with Absent => [] | _ => [Set_ Index Absent] end) ++ rest
    /\ forall s, ~ In (Set_ Index s) rest) as (rest & E & R).
  { eexists. split; [unfold cleanup_ops; cbn [flat_map]; f_equal; reflexivity|].
    intros s K. repeat (apply in_app_iff in K; destruct K as [K|K]);
      try (destruct (d _); cbn in K; repeat destruct K as [K|K]; try contradiction; discriminate).
    cbn in K. contradiction. }
  rewrite E in *. destruct (d Index) eqn:D.
  - cbn [app]. rewrite run_ops_other; auto. intros s K. apply firstn_incl in K. now apply (R s).
  - destruct n as [|n]; [lia|]. cbn [app firstn fold_left run_op]. rewrite run_ops_other.
    + apply put_same.
    + intros s K. apply firstn_incl in K. now apply (R s).
  - destruct n as [|n]; [lia|]. cbn [app firstn fold_left run_op]. rewrite run_ops_other.
    + apply put_same.
    + intros s K. apply firstn_incl in K. now apply (R s).
  - destruct n as [|n]; [lia|]. cbn [app firstn fold_left run_op]. rewrite run_ops_other.
    + apply put_same.
    + intros s K. apply firstn_incl in K. now apply (R s).
Qed.

Lemma cleanup_tag : forall d, fold_left run_op (cleanup_ops d) d Tag = Absent.
Proof.
  intro d.
  assert (exists pre, cleanup_ops d = pre ++ (match d Tag with Absent => [] | _ => [Set_ Tag Absent] end)
    /\ forall s, ~ In (Set_ Tag s) pre) as (pre & E & R).
  { unfold cleanup_ops. exists (flat_map (fun n => match d n return list op with
                     | Absent => []
                     | _ => match n with
                            | Db => [Set_ Db Partial; Set_ Db Absent]
                            | _ => [Set_ n Absent]
                            end
                     end) [Index; Errors; Coupled; Monitored; ReactionCount; Db]). split.
    - change [Index; Errors; Coupled; Monitored; ReactionCount; Db; Tag]
        with ([Index; Errors; Coupled; Monitored; ReactionCount; Db] ++ [Tag]).
      rewrite flat_map_app. f_equal. cbn. destruct (d Tag); reflexivity.
    - intros s K. apply in_flat_map in K. destruct K as (m & M & K).
      assert (m <> Tag) as N by (intros ->; cbn in M; intuition discriminate).
      destruct (d m), m; cbn in K; repeat destruct K as [K|K]; try contradiction; discriminate. }
  rewrite E, fold_left_app. pose proof (run_ops_other pre d Tag R) as P.
  destruct (d Tag) eqn:D; cbn [fold_left run_op]; [congruence|apply put_same..].
Qed.

Lemma extract_not_tag : forall members s, (forall b, ~ In (Tag, b) members) -> ~ In (Set_ Tag s) (extract_ops members).
Proof.
  intros members s H K. unfold extract_ops in K. apply in_flat_map in K.
  destruct K as ([m b] & K1 & K2). cbn in K2. destruct K2 as [K2|[K2|[]]]; injection K2 as -> _; eapply H; eauto.
Qed.

Lemma extract_final : forall members n d, n <> Tag ->
  (exists before after, members = before ++ (n, true) :: after /\ forall b, ~ In (n, b) after) ->
  fold_left run_op (extract_ops members) d n = New.
Proof.
  intros members n d N (b & a & -> & H). unfold extract_ops. rewrite flat_map_app, fold_left_app.
  cbn [flat_map fst snd app fold_left run_op]. rewrite run_ops_other.
  - apply put_same.
  - intros s K. apply in_flat_map in K. destruct K as ([m bb] & K1 & K2). cbn in K2.
    destruct K2 as [K2|[K2|[]]]; injection K2 as -> _; eapply H; eauto.
Qed.

Lemma download_safe : forall members d n, complete_archive members ->
  all_exist (stopped members n d) = true ->
  (forall x, stopped members n d x = d x) \/ (forall x, stopped members n d x = New).
Proof.
  intros members d n [HT HC] HA. unfold stopped, download_ops in *.
  destruct (Nat.eq_dec n 0) as [->|N0]; [left; auto|].
  destruct (le_lt_dec n (length (cleanup_ops d))) as [L1|L1].
  { exfalso. rewrite firstn_app in HA. replace (n - length (cleanup_ops d)) with 0 in HA by lia.
    rewrite firstn_O, app_nil_r in HA.
    rewrite (absent_exist _ Index) in HA; [discriminate|]. apply cleanup_index. lia. }
  assert (forall x, firstn n (cleanup_ops d ++ x) = cleanup_ops d ++ firstn (n - length (cleanup_ops d)) x) as FA.
  { intro x. rewrite firstn_app, (firstn_all2 (cleanup_ops d)) by lia. reflexivity. }
  rewrite FA, fold_left_app in HA |- *.
  set (d1 := fold_left run_op (cleanup_ops d) d) in *.
  pose proof (cleanup_tag d) as T1. fold d1 in T1.
  destruct (le_lt_dec (n - length (cleanup_ops d)) (length (extract_ops members))) as [L2|L2].
  { exfalso. rewrite firstn_app in HA.
    replace (n - length (cleanup_ops d) - length (extract_ops members)) with 0 in HA by lia.
    rewrite firstn_O, app_nil_r in HA.
    rewrite (absent_exist _ Tag) in HA; [discriminate|]. rewrite run_ops_other; auto.
    intros s K. apply firstn_incl in K. eapply extract_not_tag; eauto. }
  right. intro x. rewrite firstn_all2 by (rewrite app_length; cbn [length]; lia).
  rewrite fold_left_app. cbn [fold_left run_op].
  destruct (dbname_eqb x Tag) eqn:E.
  - apply dbname_eqb_eq in E. subst. apply put_same.
  - assert (x <> Tag) as NE by (intros ->; now rewrite dbname_eqb_refl in E).
    rewrite put_other by auto. apply extract_final; auto.
Qed.

Lemma download_finishes : forall members d, complete_archive members ->
  forall x, stopped members (length (download_ops members d)) d x = New.
Proof.
  intros members d [HT HC] x. unfold stopped. rewrite firstn_all. unfold download_ops.
  rewrite !fold_left_app. cbn [fold_left run_op].
  destruct (dbname_eqb x Tag) eqn:E.
  - apply dbname_eqb_eq in E. subst. apply put_same.
  - assert (x <> Tag) as NE by (intros ->; now rewrite dbname_eqb_refl in E).
    rewrite put_other by auto. apply extract_final; auto.
Qed.

Lemma all_exist_ext : forall d d', (forall x, d x = d' x) -> all_exist d = all_exist d'.
Proof. intros d d' H. unfold all_exist. cbn [forallb]. now rewrite !H. Qed.

Lemma attempts_safe : forall members ns d, complete_archive members ->
  (all_exist d = true -> forall x, d x = New) ->
  all_exist (fold_left (fun d n => stopped members n d) ns d) = true ->
  forall x, fold_left (fun d n => stopped members n d) ns d x = New.
Proof.
  intros members ns. induction ns as [|n ns IH]; intros d HC I H x; cbn [fold_left] in *; auto.
  apply IH; auto. intros E y. destruct (download_safe members d n HC E) as [S|S]; auto.
  rewrite S. apply I. rewrite <- E. apply all_exist_ext. auto.
Qed.

Lemma tag_alone : exists members n d, complete_archive members /\
  stopped members n d Tag <> Absent /\ stopped members n d Index = Absent /\ stopped members n d Db = Absent.
Proof.
  exists (map (fun n => (n, true)) [Index; Errors; Coupled; Monitored; ReactionCount; Db]), 7, (fun _ => Old).
  split; [|vm_compute; repeat split; discriminate]. split.
  - intros b H. cbn in H. intuition discriminate.
  - intros [] N; try congruence; cbn.
    + exists [], [(Errors, true); (Coupled, true); (Monitored, true); (ReactionCount, true); (Db, true)].
      split; auto. intros b H; cbn in H; intuition discriminate.
    + exists [(Index, true)], [(Coupled, true); (Monitored, true); (ReactionCount, true); (Db, true)].
      split; auto. intros b H; cbn in H; intuition discriminate.
    + exists [(Index, true); (Errors, true)], [(Monitored, true); (ReactionCount, true); (Db, true)].
      split; auto. intros b H; cbn in H; intuition discriminate.
    + exists [(Index, true); (Errors, true); (Coupled, true)], [(ReactionCount, true); (Db, true)].
      split; auto. intros b H; cbn in H; intuition discriminate.
    + exists [(Index, true); (Errors, true); (Coupled, true); (Monitored, true)], [(Db, true)].
      split; auto. intros b H; cbn in H; intuition discriminate.
    + exists [(Index, true); (Errors, true); (Coupled, true); (Monitored, true); (ReactionCount, true)], [].
      split; auto.
Qed.

(** Concrete files for the refutations. *)
Definition w_row (s : str) : row := mkRow (Some (firstn 5 s)) s (Some []) (Some []) (Some []) (Some []) (Some []) (Some []).
Definition w_file : str := lit "ENTRY            10001   20000101" ++ [nl] ++
  lit "SUBENT        10001001   20000101" ++ [nl] ++ lit "BIB" ++ [nl] ++ lit "ENDSUBENT" ++ [nl] ++ lit "ENDENTRY" ++ [nl].
Definition w_tree : dbtree := [(lit "100", Some [(lit "10001.x4", Some w_file)])].
Definition w_fs : files := fun a b => if str_eqb a (lit "100") && str_eqb b (lit "10001") then Some w_file else None.

Lemma memory_refuted : exists table t fs c content text,
  tree_files t = Some [(lit "100/10001.x4", content)] /\
  fs (lit "100") (lit "10001") = Some content /\
  retrieve (@Ok (list str)) table fs c = Ok [(lit "10001", [text])] /\
  snd (retrieve_cached (@Ok (list pytext)) table (Some t) c empty_cache) = Raise TypeError.
Proof.
  exists [w_row (lit "10001001")], w_tree, w_fs, (by_entry (lit "10001")), w_file.
  eexists. repeat split; vm_compute; reflexivity.
Qed.

(** A failed load leaves keys that a later successful load does not remove. *)
Lemma stale_key : exists h t k files, disk_files t = Some files /\ NoDup (map fst files) /\
  ~ In k (map fst files) /\
  (forall t' k', In (t', k') h -> disk_files t' = None) /\
  snd (cache_getitem t k (run_lookups h empty_cache)) <> Raise KeyError.
Proof.
  exists [(Some [(lit "100", Some [(lit "a.x4", Some (lit "x")); (lit "b.x4", None)])], lit "100/a.x4")],
    (Some [(lit "100", Some [(lit "b.x4", Some (lit "y"))])]), (lit "100/a.x4").
  eexists. split; [vm_compute; reflexivity|]. split; [repeat constructor; auto|].
  split; [vm_compute; intuition discriminate|].
  split; [intros t' k' [H|[]]; injection H as <- <-; reflexivity|]. vm_compute. discriminate.
Qed.

Lemma contains_before_load : forall k, cache_contains k empty_cache = false.
Proof. reflexivity. Qed.
