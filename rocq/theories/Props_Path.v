(** C83: where the outputs go. *)
From Coq Require Import List ZArith Bool Lia String Reals.
From Verif Require Import Base Model_Float Model_Bincode BincodeFacts Spec Spec_Csv Model_Stream Model_Fft FftFacts Props_Fft PlanFacts PolyLoopFacts Spec_Metric PipelineFacts Props_Poly Props_Plan Props_Pipeline
  Model_Vsri Model_Wavbrro Model_Csv CsvFacts Model_Cli Props_Cli Props_Crash Props_Interop Props_Directory Props_Accuracy Props_Csv Props_Csvc Model_Args Spec_Args Props_Args Model_Command Props_Command.
Import ListNotations.
Open Scope Z_scope.

(** * Vocabulary *)
(** A file name: not empty, no slash, none of the names of directories "." and "..". *)
Definition file_name (f : name) : Prop := f <> [] /\ f <> [46] /\ f <> [46; 46] /\ ~ In 47 f.
(** [g] is [f] with the extension [ext]: in place of what follows the last dot, or appended if there is no dot but perhaps at the start. *)
Definition with_extension (f : name) (ext : text) (g : name) : Prop :=
  (exists s old, s <> [] /\ ~ In 46 old /\ f = s ++ [46] ++ old /\ g = s ++ [46] ++ ext) \/
  (~ In 46 (tl f) /\ g = f ++ [46] ++ ext).

Lemma stem_cases f : f <> [] -> (exists s old, s <> [] /\ ~ In 46 old /\ f = s ++ [46] ++ old /\ file_stem f = s) \/ (~ In 46 (tl f) /\ file_stem f = f).
Proof.
  intros Hf. destruct (in_dec Z.eq_dec 46 (tl f)) as [Hin|Hn].
  - left. destruct f as [|c f]; [congruence|]. cbn [tl] in Hin.
    assert (K : exists s old, f = s ++ [46] ++ old /\ ~ In 46 old).
    { clear Hf. induction f as [|b f IH]; [destruct Hin|]. destruct (in_dec Z.eq_dec 46 f) as [H|H].
      - destruct (IH H) as (s & old & -> & Ho). now exists (b :: s), old.
      - destruct Hin as [->|Hin]; [|contradiction]. now exists [], f. }
    destruct K as (s & old & -> & Ho). exists (c :: s), old. split; [discriminate|]. split; [exact Ho|]. split; [reflexivity|].
    unfold file_stem. change (c :: s ++ [46] ++ old) with (named (c :: s) old). now rewrite last_dot_named.
  - right. split; [exact Hn|]. destruct f as [|c f]; [congruence|]. cbn [tl] in Hn. unfold file_stem. cbn [last_dot]. rewrite last_dot_none by exact Hn. now destruct (c =? ch_dot).
Qed.
Lemma set_extension_in d f ext : directory d -> file_name f -> exists g, with_extension f ext g /\ set_extension (d ++ f) ext = d ++ g.
Proof.
  intros Hd (H1 & H2 & H3 & H4). rewrite set_ext_in by assumption. destruct (stem_cases f H1) as [(s & old & Hs & Ho & -> & E)|[Hn E]]; rewrite E.
  - exists (s ++ [46] ++ ext). split; [left; now exists s, old|reflexivity].
  - exists (f ++ [46] ++ ext). split; [right; now split|reflexivity].
Qed.
Lemma with_extension_unique f ext g g' : with_extension f ext g -> with_extension f ext g' -> g = g'.
Proof.
  assert (A : forall s old s' old', ~ In 46 old -> ~ In 46 old' -> s ++ [46] ++ old = s' ++ [46] ++ old' -> s = s').
  { intros s old s' old' H H' E. assert (X : Some s = Some s') by (transitivity (last_dot (s ++ [46] ++ old)); [symmetry; now apply last_dot_named|rewrite E; now apply last_dot_named]). congruence. }
  assert (B : forall s old, s <> [] -> In 46 (tl (s ++ [46] ++ old))) by (intros [|c s] old H; [congruence|]; cbn [app tl]; apply in_or_app; right; now left).
  intros [(s & old & Hs & Ho & -> & ->)|[Hn ->]] [(s' & old' & Hs' & Ho' & E & ->)|[Hn' ->]].
  - now rewrite (A _ _ _ _ Ho Ho' E).
  - exfalso. now apply Hn', B.
  - exfalso. subst f. now apply Hn, B.
  - reflexivity.
Qed.

(** * A call of atsc on a file writes into the directory of that file, whatever dots are in the names of directories. *)
Theorem C83_next_to_input : forall e p nt a fs d f fs' o, directory d -> file_name f ->
  process_single_file e p nt a fs (d ++ f) = (fs', o) ->
  exists g, with_extension f (if a_uncompress a then txt "wbro" else txt "bro") g /\ ~ In 47 g /\ only_changes (d ++ g) fs fs'.
Proof.
  intros e p nt a fs d f fs' o Hd Hf H. destruct (set_extension_in d f (if a_uncompress a then txt "wbro" else txt "bro") Hd Hf) as (g & G & Eg). exists g. split; [exact G|]. split.
  - assert (Hx : ~ In 47 (if a_uncompress a then txt "wbro" else txt "bro")) by (destruct (a_uncompress a); vm_compute; lia). destruct Hf as (_ & _ & _ & Hs).
    destruct G as [(s & old & _ & _ & -> & ->)|[_ ->]]; rewrite !in_app_iff in *; cbn [In]; intros [C|[[C|[]]|C]]; try discriminate C; try (now apply Hx); apply Hs; tauto.
  - assert (Same : forall m, only_changes m fs fs) by (intros m k _; reflexivity). assert (Put : forall b, only_changes (d ++ g) fs (put fs (d ++ g) b)) by (intros b m Hm; now apply put_other).
    assert (CT : forall data q, compress_to e p a fs (d ++ f) data = (fs', q) -> a_uncompress a = false -> only_changes (d ++ g) fs fs').
    { intros data q C U. unfold compress_to in C. rewrite U in Eg. change (txt "bro") with ext_bro in Eg. rewrite Eg in C. destruct (compress_data _ _ _ _ _ _); injection C as <- <-; [apply Put|apply Same]. }
    unfold process_single_file in H. destruct (a_uncompress a) eqn:U.
    + change (txt "wbro") with ext_wbro in Eg. rewrite Eg in H. destruct (fs (d ++ f)) as [b|]; [|injection H as <- <-; apply Same]. destruct (bro_read b) as [| |bytes]; [injection H as <- <-; apply Same..|].
      destruct (decompress_data e p bytes) as [out|]; [|injection H as <- <-; apply Same]. unfold put_wbro in H. destruct (bind _ _); injection H as <- <-; [apply Put|apply Same].
    + destruct (a_csv a).
      * destruct (if a_no_header a then _ else _) as [[l|err]|]; [|injection H as <- <-; apply Same..]. exact (CT _ _ H eq_refl).
      * destruct (from_file (fs (d ++ f))) as [[data| |]|]; [|injection H as <- <-; apply Same..]. exact (CT _ _ H eq_refl).
Qed.
Print Assumptions C83_next_to_input.

(** * A call on a directory writes files of that directory only, and only such that end in .bro (.wbro with -u). *)
Lemma directory_changes e p nt a d : directory d -> forall fns fs fs' o, Forall file_name fns ->
  process_directory e p nt a fs (map (app d) fns) = (fs', o) ->
  forall m, fs' m <> fs m -> exists f g, In f fns /\ with_extension f (if a_uncompress a then txt "wbro" else txt "bro") g /\ ~ In 47 g /\ m = d ++ g.
Proof.
  intros Hd fns. induction fns as [|f fns IH]; intros fs fs' o Hf H m Hm; cbn [map process_directory] in H; [congruence|].
  inversion Hf as [|? ? Hf1 Hf2]; subst.
  assert (Later : forall fs1 fs2 q, process_directory e p nt a fs1 (map (app d) fns) = (fs2, q) -> fs2 m <> fs1 m ->
     exists f' g, In f' (f :: fns) /\ with_extension f' (if a_uncompress a then txt "wbro" else txt "bro") g /\ ~ In 47 g /\ m = d ++ g).
  { intros fs1 fs2 q R N. destruct (IH _ _ _ Hf2 R m N) as (f' & g & I1 & I2). exists f', g. split; [now right|exact I2]. }
  assert (Now : forall fs1 fs2 q, process_single_file e p nt a fs1 (d ++ f) = (fs2, q) -> fs2 m <> fs1 m ->
     exists f' g, In f' (f :: fns) /\ with_extension f' (if a_uncompress a then txt "wbro" else txt "bro") g /\ ~ In 47 g /\ m = d ++ g).
  { intros fs1 fs2 q R N. destruct (C83_next_to_input e p nt a fs1 d f fs2 q Hd Hf1 R) as (g & G1 & G2 & G3). exists f, g. split; [now left|]. split; [exact G1|]. split; [exact G2|].
    destruct (list_eq_dec Z.eq_dec m (d ++ g)) as [E|E]; [exact E|]. elim N. now apply G3. }
  assert (Dec : forall x y : option (list Z), {x = y} + {x <> y}) by (repeat decide equality).
  destruct (fs (d ++ f)) as [b|]; [|exact (Later _ _ _ H Hm)].
  destruct (process_single_file e p nt a fs (d ++ f)) as [fs1 o1] eqn:R1. destruct (Dec (fs1 m) (fs m)) as [E1|E1]; [|exact (Now _ _ _ R1 E1)].
  destruct o1 as [|err|].
  - apply (Later _ _ _ H). congruence.
  - destruct (process_single_file e p nt a fs1 (d ++ f)) as [fs2 o2] eqn:R2. destruct (Dec (fs2 m) (fs1 m)) as [E2|E2]; [|exact (Now _ _ _ R2 E2)].
    destruct o2; [apply (Later _ _ _ H); congruence|injection H as <- <-; congruence..].
  - injection H as <- <-. congruence.
Qed.
Lemma entries_under dir entries : dir <> [] -> exists d, directory d /\ map (join dir) entries = map (app d) entries /\ forall n, entry_path dir n (d ++ n).
Proof.
  intros Hd. destruct (rev dir) as [|c r] eqn:E; [exfalso; apply Hd; rewrite <- (rev_involutive dir), E; reflexivity|].
  assert (Ed : dir = rev r ++ [c]) by (rewrite <- (rev_involutive dir), E; reflexivity).
  destruct (Z.eqb_spec c 47) as [->|Nc].
  - exists dir. split; [right; now exists (rev r)|]. split; [apply map_ext; intros n; unfold join; now rewrite E|]. intros n. exists (rev r). split; [now right|]. split; [now rewrite Ed, <- app_assoc|].
    intros C. exfalso. rewrite Ed in C. apply (f_equal (@List.length Z)) in C. rewrite app_length in C. cbn in C. lia.
  - exists (dir ++ [47]). split; [right; now exists dir|]. split.
    { apply map_ext. intros n. unfold join. rewrite E. unfold ch_slash. rewrite (proj2 (Z.eqb_neq c 47) Nc). now rewrite <- app_assoc. }
    intros n. exists dir. split; [now left|]. split; [now rewrite <- app_assoc|]. intros _ d' C. rewrite Ed in C. apply app_inj_tail in C. destruct C as [_ C]. now apply Nc.
Qed.
Theorem C83_directory_writes : forall e p nt ws fs sp dir a entries fs' st,
  atsc_parse ws = Some (dir, a) -> fs dir = None -> sp dir = Some (Listing entries) -> Forall file_name entries ->
  atsc_command e p nt ws fs sp = (fs', st) ->
  forall m, fs' m <> fs m -> exists f g, In f entries /\ with_extension f (if a_uncompress a then txt "wbro" else txt "bro") g /\ ~ In 47 g /\ entry_path dir g m.
Proof.
  intros e p nt ws fs sp dir a entries fs' st P Hf Hs He H m Hm. assert (Hd : dir <> []) by (intros ->; now apply (atsc_parse_nonempty ws a)).
  unfold atsc_command, atsc_process_args in H. rewrite P, Hf, Hs in H. destruct (entries_under dir entries Hd) as (d & D1 & D2 & D3). rewrite D2 in H.
  destruct (process_directory e p nt a fs (map (app d) entries)) as [fs1 o] eqn:R. injection H as -> _.
  destruct (directory_changes e p nt a d D1 entries fs fs' o He R m Hm) as (f & g & G1 & G2 & G3 & ->). exists f, g. split; [exact G1|]. split; [exact G2|]. split; [exact G3|]. apply D3.
Qed.
Print Assumptions C83_directory_writes.

(** * A directory of WavBrro files by two command lines: compress the directory (automatic selection, no sampling, error E), and uncompress it. The first
    listing is of the WavBrro files, the second one has all the compressed files and perhaps some or all of the others, in any order. Both calls exit with 0,
    and each file then holds its finite samples, chunk by chunk nearly equal or within 6/5 of E percent. *)
Lemma directory_with_u e p nt a b : a_uncompress a = true -> forall entries fs, process_directory e p nt a fs entries = process_directory e p nt (uncompressing b) fs entries.
Proof.
  intros U entries. induction entries as [|n entries IH]; intros fs; [reflexivity|]. cbn [process_directory]. destruct (fs n); [|apply IH].
  rewrite (with_u e p nt a b fs n U). destruct (process_single_file e p nt (uncompressing b) fs n) as [fs1 [|err|]]; [apply IH| |reflexivity].
  rewrite (with_u e p nt a b fs1 n U). destruct (process_single_file e p nt (uncompressing b) fs1 n) as [fs2 [|err2|]]; [apply IH|reflexivity..].
Qed.
Theorem C83_directory_session : forall e p nt fs sp1 sp2 dir ws1 ws2 a1 a2 stems entries,
  env_ok e -> atsc_parse ws1 = Some (dir, a1) -> a_uncompress a1 = false -> a_csv a1 = false -> a_compressor a1 = Auto -> a_level a1 = 0 ->
  atsc_parse ws2 = Some (dir, a2) -> a_uncompress a2 = true ->
  fs dir = None ->
  sp1 dir = Some (Listing (map (fun f => named f (txt "wbro")) stems)) -> NoDup stems -> Forall file_name stems ->
  sp2 dir = Some (Listing entries) ->
  (forall n, In n entries -> exists f, In f stems /\ (n = named f (txt "bro") \/ n = named f (txt "wbro"))) -> (forall f, In f stems -> In (named f (txt "bro")) entries) ->
  (forall f q, In f stems -> entry_path dir (named f (txt "wbro")) q -> exists data v, from_file (fs q) = Ok (WbSamples data) /\ In v data /\ finite v /\
     Forall (fun x => finite x -> supported x /\ no_negative_zero x) data /\ fits_counter p data /\ Z.of_nat (List.length data) <= 2 ^ 28) ->
  exists fs1 fs2,
    atsc_command e p nt ws1 fs sp1 = (fs1, Some 0) /\ atsc_command e p nt ws2 fs1 sp2 = (fs2, Some 0) /\
    (forall f q data, In f stems -> entry_path dir (named f (txt "wbro")) q -> from_file (fs q) = Ok (WbSamples data) ->
       exists outs chunks cleaned, from_file (fs2 q) = Ok (WbSamples (concat outs)) /\ subsequence_of finite data cleaned /\ concat chunks = cleaned /\
         Forall2 (fun chunk out => nearly_equal chunk out \/ relative_error_within (6 / 5 * (IZR (a_error a1) / 100 + / 1000000)) chunk out) chunks outs) /\
    (forall m, (forall f q, In f stems -> (entry_path dir (named f (txt "bro")) q \/ entry_path dir (named f (txt "wbro")) q) -> m <> q) -> fs2 m = fs m).
Proof.
  intros e p nt fs sp1 sp2 dir ws1 ws2 a1 a2 stems entries He P1 U1 V1 K1 L1 P2 U2 Hf Hs1 Nd Fn Hs2 En1 En2 Hw.
  change (txt "wbro") with ext_wbro in *. change (txt "bro") with ext_bro in *.
  assert (Hd : dir <> []) by (intros ->; now apply (atsc_parse_nonempty ws1 a1)). assert (Acc := proj1 (C80_limits ws1) _ _ P1).
  destruct (entries_under dir [] Hd) as (d & D1 & _ & D3).
  assert (J : forall n, join dir n = d ++ n) by (intros n; now apply join_path).
  assert (PE : forall n q, entry_path dir n q <-> q = d ++ n) by (intros n q; split; [intros H; rewrite <- J; symmetry; now apply join_path|intros ->; apply D3]).
  assert (Nm : forall f ext, d ++ named f ext = named (d ++ f) ext) by (intros; unfold named; now rewrite app_assoc).
  set (xs := map (app d) stems).
  assert (Xs : forall x, In x xs -> exists f, In f stems /\ x = d ++ f) by (intros x H; apply in_map_iff in H; destruct H as (f & <- & H); now exists f).
  assert (Nx : NoDup xs).
  { unfold xs. clear - Nd. induction Nd as [|f l Hn Nd IH]; cbn [map]; constructor; [|exact IH]. intros H. apply in_map_iff in H. destruct H as (g & E & H). apply app_inv_head in E. now subst g. }
  assert (Px : Forall proper_stem xs).
  { apply Forall_forall. intros x H. destruct (Xs x H) as (f & Hi & ->). rewrite Forall_forall in Fn. destruct (Fn f Hi) as (F1 & F2 & _ & F4). exists d, f. auto. }
  assert (Hx : forall x, In x xs -> exists data v, from_file (fs (named x ext_wbro)) = Ok (WbSamples data) /\ In v data /\ finite v /\ fits_counter p data /\ Z.of_nat (List.length data) <= 2 ^ 28).
  { intros x H. destruct (Xs x H) as (f & Hi & ->). destruct (Hw f (d ++ named f ext_wbro) Hi (D3 _)) as (data & v & A1 & A2 & A3 & _ & A5 & A6). rewrite Nm in A1. exists data, v. auto. }
  set (ents := map (join dir) entries).
  assert (En1' : forall n, In n ents -> exists x, In x xs /\ (n = named x ext_bro \/ n = named x ext_wbro)).
  { intros n H. apply in_map_iff in H. destruct H as (n' & <- & H). destruct (En1 n' H) as (f & Hi & E). exists (d ++ f). split; [now apply in_map|]. rewrite J, <- !Nm. destruct E as [->| ->]; auto. }
  assert (En2' : forall x, In x xs -> In (named x ext_bro) ents).
  { intros x H. destruct (Xs x H) as (f & Hi & ->). rewrite <- Nm, <- J. apply in_map. now apply En2. }
  destruct (C73_round_trip e p nt a1 fs xs ents He Acc V1 Nx Px Hx En1' En2') as (fs1 & fs2 & R1 & R2 & R3 & R4).
  exists fs1, fs2.
  assert (X1 : map (join dir) (map (fun f => named f ext_wbro) stems) = map (fun x => named x ext_wbro) xs).
  { unfold xs. rewrite !map_map. apply map_ext. intros f. now rewrite J, Nm. }
  assert (C1 : compressing a1 = a1) by (destruct a1; cbn in U1; now subst).
  split; [|split; [|split]].
  - unfold atsc_command, atsc_process_args. rewrite P1, Hf, Hs1, X1. rewrite C1 in R1. rewrite R1. reflexivity.
  - assert (Df : fs1 dir = None).
    { destruct (fs1 dir) as [b|] eqn:E; [|reflexivity]. exfalso.
      assert (B : batch a1 (map (fun f => (d ++ f, ext_wbro)) stems)).
      { split; [rewrite map_map; exact Nx|]. apply Forall_forall. intros i H. apply in_map_iff in H. destruct H as (f & <- & H). cbn [fst snd]. split; [rewrite Forall_forall in Px; apply Px; now apply in_map|]. split; [apply proper_wbro|]. unfold out_ext. rewrite U1. discriminate. }
      assert (R1' : process_directory e p nt a1 fs (map in_name (map (fun f => (d ++ f, ext_wbro)) stems)) = (fs1, Done)) by (rewrite <- C1, <- R1; f_equal; unfold xs; rewrite !map_map; reflexivity).
      destruct (C73_directory e p nt a1 fs _ fs1 Done B R1') as (good & rest & Eg & _ & Un & _).
      rewrite (Un dir) in E; [congruence|]. intros i Hi _ C. assert (Hi' : In i (map (fun f => (d ++ f, ext_wbro)) stems)) by (rewrite Eg; apply in_or_app; now left).
      apply in_map_iff in Hi'. destruct Hi' as (f & <- & Hi'). unfold out_name, out_ext in C. cbn [fst] in C. rewrite U1, <- Nm in C. destruct (proj2 (PE _ _) C) as (d0 & Hd0 & Eq & _). apply (f_equal (@List.length Z)) in Eq. unfold named in Eq. destruct Hd0 as [-> | ->]; rewrite !app_length in Eq; cbn in Eq; lia. }
    unfold atsc_command, atsc_process_args. rewrite P2, Df, Hs2. fold ents. rewrite (directory_with_u e p nt a2 a1 U2), R2. reflexivity.
  - intros f q data Hi Hq Hdat. apply PE in Hq. subst q. destruct (Hw f _ Hi (D3 _)) as (data' & v & A1 & A2 & A3 & A4 & A5 & A6).
    assert (data' = data) as -> by (rewrite A1 in Hdat; apply ok_inj in Hdat; congruence).
    rewrite Nm in Hdat. destruct (R3 (d ++ f) data (in_map _ _ _ Hi) Hdat) as (bytes & out & Cb & Db & _ & W).
    destruct Acc as [Acc1 Acc2]. destruct (C55_auto_error_end_to_end e p data (a_error a1) He ltac:(lia) A5 A4) as (bytes' & outs & chunks & cleaned & Cb' & Db' & Sub & Cat & Err).
    rewrite K1, L1 in Cb. assert (bytes' = bytes) as -> by (rewrite Cb in Cb'; apply ok_inj in Cb'; congruence). rewrite Db in Db'. apply ok_inj in Db'. subst out.
    exists outs, chunks, cleaned. rewrite Nm. auto.
  - intros m Hm. apply R4. intros x H. destruct (Xs x H) as (f & Hi & ->). rewrite <- !Nm. split; apply (Hm f _ Hi); [left|right]; apply D3.
Qed.
Print Assumptions C83_directory_session.

(** * csv-compressor: the outputs are named after --output, or the input. Slashes and "/." at the end do not count. *)
Inductive trailing : text -> Prop :=
| trailing_none : trailing []
| trailing_slash t : trailing t -> trailing (t ++ [47])
| trailing_dot t : trailing t -> trailing (t ++ [47; 46]).
Lemma trim_trailing tr : trailing tr -> forall n, trim_end (rev (n ++ tr)) = trim_end (rev n).
Proof.
  intros H. induction H as [|t H IH|t H IH]; intros n; [now rewrite app_nil_r| |]; rewrite app_assoc, rev_app_distr.
  - change (rev [47]) with [47]. cbn [app trim_end]. change (47 =? ch_slash) with true. cbv iota. apply IH.
  - change (rev [47; 46]) with [46; 47]. cbn [app]. change (trim_end (46 :: 47 :: rev (n ++ t))) with (trim_end (rev (n ++ t))). apply IH.
Qed.
Lemma set_extension_trailing d f tr ext : directory d -> file_name f -> trailing tr -> set_extension (d ++ f ++ tr) ext = d ++ file_stem f ++ [46] ++ ext.
Proof.
  intros Hd (H1 & H2 & H3 & H4) Ht. rewrite <- (set_ext_in d f ext) by assumption. rewrite app_assoc. unfold set_extension. rewrite trim_trailing by exact Ht.
  rewrite trim_end_in, last_component_in by assumption. unfold text_eqb, ch_dot. repeat (destruct (list_eq_dec Z.eq_dec f _) as [C|_]; [contradiction|]). reflexivity.
Qed.
Lemma stem_with f ext : f <> [] -> with_extension f ext (file_stem f ++ [46] ++ ext) /\ file_stem f <> [] /\ (forall c, In c (file_stem f) -> In c f).
Proof.
  intros Hf. destruct (stem_cases f Hf) as [(s & old & Hs & Ho & E & ->)|[Hn ->]]; (split; [|split; [assumption|]]).
  - left. now exists s, old.
  - intros c C. rewrite E. apply in_or_app. now left.
  - right. now split.
  - auto.
Qed.
Lemma stem_wbro_csv d f : directory d -> file_name f -> set_extension (d ++ file_stem f ++ [46] ++ ext_wbro) ext_csv = d ++ file_stem f ++ [46] ++ ext_csv.
Proof.
  intros Hd (H1 & _ & _ & H4). destruct (stem_with f ext_wbro H1) as (_ & Hs & Hc). set (s := file_stem f) in *. clearbody s.
  rewrite set_ext_in.
  - unfold file_stem. change (s ++ [46] ++ ext_wbro) with (named s ext_wbro). rewrite last_dot_named by (vm_compute; lia). now destruct s.
  - exact Hd.
  - destruct s; discriminate.
  - destruct s as [|c [|]]; discriminate || congruence.
  - destruct s as [|c [|c' [|]]]; discriminate || congruence.
  - rewrite !in_app_iff. intros [C|[[C|[]]|C]]; [apply H4, Hc, C|discriminate C|revert C; vm_compute; lia].
Qed.

Theorem C83_csvc_outputs : forall e p nt c fs d f tr fs' o, directory d -> file_name f -> trailing tr -> csvc_base c = d ++ f ++ tr ->
  csvc_process_args e p nt c fs = (fs', o) ->
  exists g : text -> name, (forall ext, with_extension f ext (g ext)) /\
    (forall m, fs' m <> fs m ->
       if c_uncompress c then m = d ++ g (txt "wbro") \/ m = d ++ g (txt "csv")
       else (c_output_wavbrro c = true /\ m = d ++ g (txt "wavbro")) \/ (c_output_vsri c = true /\ m = d ++ g (txt "vsri")) \/ (c_no_compression c = false /\ m = d ++ g (txt "bro"))) /\
    (o = Done -> c_uncompress c = false ->
       (c_output_wavbrro c = true -> fs' (d ++ g (txt "wavbro")) <> None) /\ (c_output_vsri c = true -> fs' (d ++ g (txt "vsri")) <> None) /\ (c_no_compression c = false -> fs' (d ++ g (txt "bro")) <> None)).
Proof.
  intros e p nt c fs d f tr fs' o Hd Hf Ht Hb H. exists (fun ext => file_stem f ++ [46] ++ ext). split; [intros ext; apply (stem_with f ext (proj1 Hf))|].
  assert (B : forall ext, set_extension (match c_output c with Some o => o | None => c_input c end) ext = d ++ file_stem f ++ [46] ++ ext) by (intros ext; change (match c_output c with Some o => o | None => c_input c end) with (csvc_base c); rewrite Hb; now apply set_extension_trailing).
  assert (PO : forall g n b m, put g n b m <> g m -> m = n) by (intros g n b m C; unfold put in C; destruct (text_eqb m n) eqn:E; [now apply text_eqb_spec|congruence]).
  assert (PN : forall g n b m, g m <> None -> put g n b m <> None) by (intros g n b m C; unfold put; destruct (text_eqb m n); [discriminate|exact C]).
  assert (PS : forall g n b, put g n b n <> None) by (intros; rewrite put_same; discriminate).
  assert (W : forall g n w g' q, put_wbro g n w = (g', q) -> (forall m, g' m <> g m -> m = n) /\ (q = Done -> g' n <> None)).
  { intros g n w g' q E. unfold put_wbro in E. destruct (do cc <- wb_to_bytes w; wbro_file cc); injection E as <- <-; (split; [|intros; (discriminate || apply PS)]); [apply PO|intros m C; congruence]. }
  unfold csvc_process_args in H. destruct (c_uncompress c).
  - split; [|intros _ C; discriminate C]. unfold csvc_uncompress in H. rewrite (B ext_wbro), stem_wbro_csv in H by assumption.
    assert (Same : forall q, (fs, q) = (fs', o) -> forall m, fs' m <> fs m -> m = d ++ file_stem f ++ [46] ++ txt "wbro" \/ m = d ++ file_stem f ++ [46] ++ txt "csv") by (intros q E m C; assert (fs' = fs) by congruence; subst; congruence).
    destruct (fs (c_input c)) as [b|]; [|exact (Same _ H)]. destruct (bro_read b) as [| |bytes]; [exact (Same _ H)..|].
    destruct (do out <- _; _) as [[out w]|r]; [|exact (Same _ H)]. destruct (fs (set_extension (c_input c) ext_vsri)) as [ib|]; [|exact (Same _ H)]. destruct (load ib) as [index|]; [|exact (Same _ H)].
    destruct (put_wbro fs (d ++ file_stem f ++ [46] ++ ext_wbro) (wb_from_slice out)) as [fs1 o1] eqn:E1. destruct (W _ _ _ _ _ E1) as [W1 _]. change (txt "wbro") with ext_wbro. change (txt "csv") with ext_csv. intros m C.
    destruct o1; [|left; apply W1; congruence..]. destruct (get_samples p (Metric w index)) as [samples|]; [|left; apply W1; congruence].
    assert (E : put fs1 (d ++ file_stem f ++ [46] ++ ext_csv) (write_samples_text nt samples) = fs') by congruence. rewrite <- E in C.
    unfold put in C. destruct (text_eqb m (d ++ file_stem f ++ [46] ++ ext_csv)) eqn:Em; [right; now apply text_eqb_spec|left; now apply W1].
  - unfold csvc_compress in H. rewrite (B ext_wavbro), (B ext_vsri), (B ext_bro) in H. change (txt "wavbro") with ext_wavbro. change (txt "vsri") with ext_vsri. change (txt "bro") with ext_bro.
    set (n1 := d ++ file_stem f ++ [46] ++ ext_wavbro) in *. set (n2 := d ++ file_stem f ++ [46] ++ ext_vsri) in *. set (n3 := d ++ file_stem f ++ [46] ++ ext_bro) in *.
    destruct (process_csv p nt (fs (c_input c))) as [mt|]; [|assert (fs' = fs) as -> by congruence; assert (o = Panicked) as -> by congruence; split; [congruence|discriminate]].
    destruct (if c_output_wavbrro c then _ else _) as [fs1 o1] eqn:E1.
    assert (F1 : (forall m, fs1 m <> fs m -> c_output_wavbrro c = true /\ m = n1) /\ (o1 = Done -> c_output_wavbrro c = true -> fs1 n1 <> None)).
    { destruct (c_output_wavbrro c); [destruct (W _ _ _ _ _ E1) as [W1 W2]; split; [intros m C; split; [reflexivity|now apply W1]|intros D _; now apply W2]|]. assert (fs1 = fs) as -> by congruence. split; [congruence|discriminate]. }
    destruct F1 as [F1 F1']. destruct o1; [|assert (fs' = fs1) as -> by congruence; split; [intros m C; left; now apply F1|intros ->; congruence]..]. specialize (F1' eq_refl).
    set (fs2 := if c_output_vsri c then put fs1 n2 (flush_bytes (mt_vsri mt)) else fs1) in *.
    assert (F2 : (forall m, fs2 m <> fs m -> (c_output_wavbrro c = true /\ m = n1) \/ (c_output_vsri c = true /\ m = n2)) /\ (c_output_wavbrro c = true -> fs2 n1 <> None) /\ (c_output_vsri c = true -> fs2 n2 <> None)).
    { subst fs2. destruct (c_output_vsri c).
      - split; [|split; [intros V; apply PN; now apply F1'|intros _; apply PS]]. intros m C. unfold put in C. destruct (text_eqb m n2) eqn:Em; [right; split; [reflexivity|now apply text_eqb_spec]|left; now apply F1].
      - split; [intros m C; left; now apply F1|]. split; [exact F1'|discriminate]. }
    destruct F2 as (F2 & F3 & F4). destruct (c_no_compression c).
    + assert (fs' = fs2) as -> by congruence. split; [intros m C; destruct (F2 m C); auto|]. intros _ _. split; [exact F3|]. split; [exact F4|discriminate].
    + destruct (compress_data e p (wb_samples (mt_wbro mt)) (c_compressor c) (c_error c) (c_level c)) as [bytes|].
      * assert (fs' = put fs2 n3 bytes) as -> by congruence. split.
        -- intros m C. unfold put in C. destruct (text_eqb m n3) eqn:Em; [right; right; split; [reflexivity|now apply text_eqb_spec]|destruct (F2 m C); auto].
        -- intros _ _. split; [intros V; apply PN; now apply F3|]. split; [intros V; apply PN; now apply F4|intros _; apply PS].
      * assert (fs' = fs2) as -> by congruence. split; [intros m C; destruct (F2 m C); auto|]. intros ->. congruence.
Qed.
Print Assumptions C83_csvc_outputs.

(** -u reads the times from the .vsri file next to the input; without it nothing is written. *)
Theorem C83_csvc_index : forall e p nt c fs d f tr g fs' o, directory d -> file_name f -> trailing tr -> c_input c = d ++ f ++ tr -> with_extension f (txt "vsri") g ->
  c_uncompress c = true -> fs (d ++ g) = None -> csvc_process_args e p nt c fs = (fs', o) -> fs' = fs.
Proof.
  intros e p nt c fs d f tr g fs' o Hd Hf Ht Hi Hg Hu Hn H. unfold csvc_process_args, csvc_uncompress in H. rewrite Hu in H.
  assert (E : set_extension (c_input c) ext_vsri = d ++ g) by (rewrite Hi, set_extension_trailing by assumption; f_equal; apply (with_extension_unique f (txt "vsri")); [apply (stem_with f ext_vsri (proj1 Hf))|exact Hg]). rewrite E, Hn in H.
  destruct (fs (c_input c)) as [b|]; [|congruence]. destruct (bro_read b); [congruence..|]. destruct (do out <- _; _) as [[out w]|]; congruence.
Qed.
Print Assumptions C83_csvc_index.


(** * Cases *)
(** A directory "d.1" with the one file "x.wbro" (three samples). *)
Definition dotted : name := txt "d.1".
Definition dotted_files : files := fun n => if text_eqb n (txt "d.1/x.wbro") then one_file (named w_x ext_wbro) else None.
Example C83_example_session : exists a1 a2,
  env_ok id_env /\ atsc_parse [dotted] = Some (dotted, a1) /\ a_uncompress a1 = false /\ a_csv a1 = false /\ a_compressor a1 = Auto /\ a_level a1 = 0 /\
  atsc_parse [txt "-u"; dotted] = Some (dotted, a2) /\ a_uncompress a2 = true /\ dotted_files dotted = None /\ NoDup [w_x] /\ Forall file_name [w_x] /\
  (forall q, entry_path dotted (named w_x (txt "wbro")) q -> exists data v, from_file (dotted_files q) = Ok (WbSamples data) /\ In v data /\ finite v /\
     Forall (fun x => finite x -> supported x /\ no_negative_zero x) data /\ fits_counter Dev data /\ Z.of_nat (List.length data) <= 2 ^ 28).
Proof.
  do 2 eexists. split; [exact id_env_ok|]. split; [vm_compute; reflexivity|]. do 4 (split; [reflexivity|]). split; [vm_compute; reflexivity|]. do 2 (split; [reflexivity|]).
  split; [constructor; [intros []|constructor]|]. split; [constructor; [|constructor]; repeat split; try discriminate; cbn; lia|].
  intros q Hq. assert (q = txt "d.1/x.wbro") as -> by (rewrite <- (join_path dotted _ q ltac:(discriminate) Hq); reflexivity).
  destruct C49_example as (data & v & _ & _ & _ & _ & _ & R & I & F & S1 & Fit & L & ->). exists three_samples, v. split; [exact R|]. split; [exact I|]. split; [exact F|]. split; [|split; assumption].
  unfold three_samples, ints in *. rewrite Forall_map in *. rewrite Forall_forall in *. intros z Hz Fz. split; [now apply S1|]. cbn in Hz. destruct Hz as [<-|[<-|[<-|[]]]]; intros C; apply (f_equal to_bits) in C; vm_compute in C; discriminate C.
Qed.
Example C83_example_paths :
  map (fun s => set_extension (txt s) ext_bro) ["x.wbro"; "d.1/x"; "d.1/x.y.z"; "/d/.x"; "../x.csv"; "d/x.wbro/"; "d/./x."; ".."; "/"; "./."; "d/x.y//"; "d/x.y/./."]%string =
  map txt ["x.bro"; "d.1/x.bro"; "d.1/x.y.bro"; "/d/.x.bro"; "../x.bro"; "d/x.bro"; "d/./x.bro"; ".."; "/"; "./."; "d/x.bro"; "d/x.bro"]%string /\
  with_extension (txt "x.y.z") (txt "bro") (txt "x.y.bro") /\ with_extension (txt ".x") (txt "bro") (txt ".x.bro").
Proof.
  split; [vm_compute; reflexivity|]. split.
  - left. exists (txt "x.y"), (txt "z"). split; [discriminate|]. split; [vm_compute; lia|]. now split.
  - right. split; [vm_compute; lia|reflexivity].
Qed.
(** csv-compressor --output d/y.1// --output-vsri x.csv: d/y.vsri and d/y.bro are written. *)
Example C83_example_csvc : exists c fs', csvc_parse [txt "--output"; txt "d/y.1//"; txt "--output-vsri"; txt "--compressor=noop"; txt "x.csv"] = Some c /\
  csvc_base c = txt "d/" ++ txt "y.1" ++ txt "//" /\ directory (txt "d/") /\ file_name (txt "y.1") /\ trailing (txt "//") /\ c_uncompress c = false /\
  csvc_process_args id_env Dev toy_numbers c csv_file = (fs', Done) /\ fs' (txt "d/y.vsri") <> None /\ fs' (txt "d/y.bro") <> None.
Proof.
  assert (P : exists c, csvc_parse [txt "--output"; txt "d/y.1//"; txt "--output-vsri"; txt "--compressor=noop"; txt "x.csv"] = Some c /\ c_output c = Some (txt "d/y.1//") /\ c_input c = txt "x.csv" /\ c_uncompress c = false /\
    c_output_vsri c = true /\ c_output_wavbrro c = false /\ c_no_compression c = false /\ c_compressor c = Noop /\ c_error c = 5 /\ c_level c = 0) by (eexists; split; [vm_compute; reflexivity|]; repeat split; reflexivity).
  destruct P as (c & P & P1 & P2 & P3 & P4 & P5 & P6 & P7 & P8 & P9). destruct (csvc_process_args id_env Dev toy_numbers c csv_file) as [fs' o] eqn:E. exists c, fs'. split; [exact P|].
  assert (Hd : directory (txt "d/")) by (right; exists (txt "d"); reflexivity).
  assert (Hf : file_name (txt "y.1")) by (repeat split; try discriminate; vm_compute; lia).
  assert (Ht : trailing (txt "//")) by (apply (trailing_slash [47]), (trailing_slash []); constructor).
  assert (Hb : csvc_base c = txt "d/" ++ txt "y.1" ++ txt "//") by (unfold csvc_base; rewrite P1; reflexivity).
  assert (Ho : o = Done).
  { apply (f_equal snd) in E. cbn [snd] in E. subst o. unfold csvc_process_args, csvc_compress. rewrite P3, P1, P2, P4, P5, P6, P7, P8, P9. vm_compute. reflexivity. }
  subst o. split; [exact Hb|]. split; [exact Hd|]. split; [exact Hf|]. split; [exact Ht|]. split; [exact P3|]. split; [exact E|].
  destruct (C83_csvc_outputs id_env Dev toy_numbers c csv_file _ _ _ fs' Done Hd Hf Ht Hb E) as (g & G & _ & W). destruct (W eq_refl P3) as (_ & W2 & W3).
  assert (Q : forall ext, g ext = txt "y." ++ ext) by (intros ext; apply (with_extension_unique (txt "y.1") ext); [apply G|left; exists (txt "y"), (txt "1"); split; [discriminate|]; split; [vm_compute; lia|]; now split]).
  rewrite !Q in W2, W3. split; [apply W2, P4|apply W3, P6].
Qed.
