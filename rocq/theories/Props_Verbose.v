(** C85: what --verbose prints. *)
From Coq Require Import List ZArith Bool Lia ZifyBool String Reals.
From Flocq Require Import Core IEEE754.BinarySingleNaN IEEE754.Binary IEEE754.Bits.
From Verif Require Import Base Model_Float Spec Spec_Csv Spec_Number Spec_Verbose Model_Stream Model_Vsri Model_Wavbrro Props_Wavbrro Props_Fft Model_Csv Model_Number NumberFacts PrintFacts Props_Number VerboseFacts Model_Cli Props_Cli Props_Crash Props_Directory Model_Args Spec_Args Props_Args Model_Command Props_Command Model_Verbose.
Import ListNotations.
Open Scope list_scope.
Open Scope Z_scope.

(** * Numbers *)
(** The text of a number is read as that number; it is shortest: at most 17 digits, no text with fewer digits is read as the same double, none with as
    many is nearer; numbers below 10^-4 and from 10^16 on are written with an exponent, the others with digits on both sides of a point; integers up
    to 2^53 as usual, with ".0". *)
Theorem C85_numbers : forall x,
  number_shown x (debug_f64 x) /\
  (finite x -> ((0 < Rabs (R64 x) < ten_to (-4) \/ ten_to 16 <= Rabs (R64 x))%R -> scientific_notation (debug_f64 x)) /\
               (~ (0 < Rabs (R64 x) < ten_to (-4) \/ ten_to 16 <= Rabs (R64 x))%R -> decimal_notation (debug_f64 x))) /\
  (finite x -> R64 x <> 0%R -> exists D v, writes (debug_f64 x) (Bsign 53 1024 x) v /\ with_digits D v /\ (D <= 17)%nat /\
    forall t neg v' n, writes t neg v' -> std_parse t = Some x -> with_digits n v' ->
      (D <= n)%nat /\ (n = D -> (Rabs (v - Rabs (R64 x)) <= Rabs (v' - Rabs (R64 x)))%R)) /\
  (forall z, is_int x z -> z <> 0 -> Z.abs z <= 2 ^ 53 -> exists t, debug_f64 x = t ++ ascii_text ".0" /\ integer_text z t).
Proof.
  intros x. split; [apply debug_shown|]. split; [apply debug_notation|]. split.
  - intros Fx Nx. apply (shortest_shown (fun _ => true) (debug_layout x) x (debug_layout_fits x) Fx Nx).
  - intros z Iz Nz Bz. assert (E : debug_exponential x = false).
    { destruct Iz as [Fx Rx]. destruct (debug_exponential x) eqn:E; [|reflexivity]. exfalso. apply (debug_exponential_spec x Fx) in E. rewrite Rx, <- abs_IZR in E.
      destruct E as [[_ E]|E].
      - change (-4) with (- (4)) in E. rewrite ten_neg, ten_Z in E by lia. assert (1 <= IZR (Z.abs z))%R by (apply IZR_le; lia). assert (/ IZR (10 ^ 4) < 1)%R by (change (10 ^ 4) with 10000; Lra.lra). Lra.lra.
      - rewrite ten_Z in E by lia. apply le_IZR in E. assert (2 ^ 53 < 10 ^ 16) by reflexivity. lia. }
    unfold debug_f64. rewrite E. apply (integer_shown (fun _ => true) debug_decimal); try assumption.
    intros m k Hk KK. unfold debug_decimal. cbv zeta. set (len := Z.of_nat (List.length (show_int m))). destruct (Z.leb_spec (len + k) 0) as [L|L]; [|now rewrite (proj2 (Z.ltb_ge (len + k) len)) by lia].
    exfalso. assert (P : 1 <= len); [|lia]. subst len. unfold show_int. destruct (m <? 0); [cbn [List.length]; lia|]. 
    assert (G : forall f y, (1 <= List.length (digits_fuel (S f) y))%nat) by (intros f y; cbn [digits_fuel]; destruct (y <? 10); [cbn; lia|rewrite app_length; cbn; lia]). specialize (G 39%nat m). lia.
Qed.
Print Assumptions C85_numbers.

(** What is printed determines the series: two series printed alike have equal numbers (all NaNs count as equal). *)
Theorem C85_unambiguous : forall data data',
  series_shown data (debug_vec data) /\ (debug_vec data = debug_vec data' -> Forall2 same_number data data').
Proof.
  intros data data'. split; [apply debug_vec_shown|]. intros E. destruct (debug_vec_shown data) as [H _]. destruct (debug_vec_shown data') as [H' _]. rewrite <- E in H'. exact (series_shown_same _ _ _ H H').
Qed.
Print Assumptions C85_unambiguous.

(** * Commands *)
Section Commands.
Variable e : env.
Variable p : profile.
Variable nt : number_text.

(** What is printed about a file with this content: the samples that are compressed, or the samples that come out; nothing if there are none to be had. *)
Definition samples_of (a : atsc_args) (content : option (list Z)) (data : list f64) : Prop :=
  if a_uncompress a then exists b, content = Some b /\ bro_read b = RBro b /\ decompress_data e p b = Ok data else file_samples nt a content data.
Definition announces (a : atsc_args) (content : option (list Z)) (out : text) : Prop :=
  (exists data, samples_of a content data /\ line_shown (ascii_text (if a_uncompress a then "Output=" else "Input=")) data out) \/
  ((forall data, ~ samples_of a content data) /\ out = []).

Lemma bro_read_self b bytes : bro_read b = RBro bytes -> bytes = b.
Proof. unfold bro_read. intros E. repeat match type of E with context [if ?c then _ else _] => destruct c end; congruence. Qed.

Lemma single_says v a fs n : exists t, process_single_file_says e p nt v a fs n = (process_single_file e p nt a fs n, t) /\
  (v = false -> t = []) /\ (v = true -> announces a (fs n) t) /\ (match snd (process_single_file e p nt a fs n) with Failed _ => t = [] | _ => True end).
Proof.
  unfold process_single_file_says, process_single_file, announces, samples_of, file_samples, csv_values.
  destruct (a_uncompress a).
  - assert (None_ : forall (c : option (list Z)), (forall b, c = Some b -> forall bytes, bro_read b = RBro bytes -> exists r, decompress_data e p bytes = Panic r) -> 
      (forall data, ~ (exists b, c = Some b /\ bro_read b = RBro b /\ decompress_data e p b = Ok data))).
    { intros c H data (b & Ec & Eb & Ed). destruct (H b Ec b Eb) as [r Er]. congruence. }
    destruct (fs n) as [b|] eqn:Ef; [|exists []; split; [reflexivity|]; split; [reflexivity|]; split; [intros _; right; split; [|reflexivity]; apply None_; intros b C; discriminate C|reflexivity]].
    destruct (bro_read b) as [| |bytes] eqn:Eb; [exists []; split; [reflexivity|]; split; [reflexivity|]; split; [intros _; right; split; [|reflexivity]; apply None_; intros b' C bytes' C'; congruence|try reflexivity; exact I]..|].
    assert (bytes = b) as -> by (now apply bro_read_self).
    destruct (decompress_data e p b) as [out|r] eqn:Ed.
    + exists (say v "Output=" out). split; [destruct (put_wbro _ _ _); reflexivity|]. split; [intros ->; reflexivity|]. split; [|unfold put_wbro; destruct (do c <- wb_to_bytes (wb_from_slice out); wbro_file c); exact I].
      intros ->. left. exists out. split; [exists b; auto|]. apply (say_shown "Output=").
    + exists []. split; [reflexivity|]. split; [reflexivity|]. split; [|exact I]. intros _. right. split; [|reflexivity]. apply None_. intros b' C bytes' C'. assert (b' = b) as -> by congruence. assert (bytes' = b) as -> by congruence. exists r. exact Ed.
  - assert (CT : forall d, match snd (compress_to e p a fs n d) with Failed _ => False | _ => True end) by (intros d; unfold compress_to; destruct (compress_data _ _ _ _ _ _); exact I).
    destruct (a_csv a).
    + set (samples := if a_no_header a then read_samples nt (fs n) else _).
      assert (CV : forall d, (exists samples, d = map sm_val samples /\
         (a_no_header a = true /\ read_samples nt (fs n) = Ok (Samples samples) \/
          a_no_header a = false /\ exists time_field value_field more, split_on ch_comma (a_fields a) = time_field :: value_field :: more /\ read_samples_with_headers nt (fs n) time_field value_field = Ok (Samples samples))) <->
         (exists l, samples = Ok (Samples l) /\ d = map sm_val l)).
      { intros d. subst samples. split.
        - intros (l & -> & [[-> E]|[-> (h & h' & mo & -> & E)]]); exists l; auto.
        - intros (l & E & ->). exists l. split; [reflexivity|]. destruct (a_no_header a); [left; auto|right]. split; [reflexivity|]. destruct (split_on ch_comma (a_fields a)) as [|h0 [|h1 hs]]; try discriminate E. exists h0, h1, hs. auto. }
      destruct samples as [[l|er]|r].
      * exists (say v "Input=" (map sm_val l)). split; [destruct (compress_to _ _ _ _ _ _); reflexivity|]. split; [intros ->; reflexivity|]. split; [|specialize (CT (map sm_val l)); destruct (snd _); auto; destruct CT].
        intros ->. left. exists (map sm_val l). split; [apply CV; exists l; auto|]. apply (say_shown "Input=").
      * exists []. split; [reflexivity|]. split; [reflexivity|]. split; [|reflexivity]. intros _. right. split; [|reflexivity]. intros d C. apply CV in C. destruct C as (l & C & _). congruence.
      * exists []. split; [reflexivity|]. split; [reflexivity|]. split; [|exact I]. intros _. right. split; [|reflexivity]. intros d C. apply CV in C. destruct C as (l & C & _). congruence.
    + destruct (from_file (fs n)) as [[data| |]|r] eqn:Er; [|exists []; (split; [reflexivity|]); (split; [reflexivity|]); (split; [|try reflexivity; exact I]); intros _; right; split; [intros d C; congruence|reflexivity]..].
      exists (say v "Input=" data). split; [destruct (compress_to _ _ _ _ _ _); reflexivity|]. split; [intros ->; reflexivity|]. split; [|specialize (CT data); destruct (snd _); auto; destruct CT].
      intros ->. left. exists data. split; [reflexivity|]. apply (say_shown "Input=").
Qed.

Lemma directory_says v a entries : forall fs, exists t, process_directory_says e p nt v a fs entries = (process_directory e p nt a fs entries, t) /\ (v = false -> t = []).
Proof.
  induction entries as [|n rest IH]; intros fs; cbn [process_directory_says process_directory]; [exists []; auto|]. destruct (fs n) as [b|]; [|apply IH].
  destruct (single_says v a fs n) as (t1 & -> & Q1 & _ & _). destruct (process_single_file e p nt a fs n) as [fs1 o1]. destruct o1 as [|er|].
  - destruct (IH fs1) as (t & -> & Q). destruct (process_directory e p nt a fs1 rest) as [fs' o']. exists (t1 ++ t). split; [reflexivity|]. intros V. now rewrite (Q1 V), (Q V).
  - destruct (single_says v a fs1 n) as (t2 & -> & Q2 & _ & _). destruct (process_single_file e p nt a fs1 n) as [fs2 o2]. destruct o2 as [|er2|].
    + destruct (IH fs2) as (t & -> & Q). destruct (process_directory e p nt a fs2 rest) as [fs' o']. exists (t1 ++ t2 ++ t). split; [reflexivity|]. intros V. now rewrite (Q1 V), (Q2 V), (Q V).
    + exists (t1 ++ t2). split; [reflexivity|]. intros V. now rewrite (Q1 V), (Q2 V).
    + exists (t1 ++ t2). split; [reflexivity|]. intros V. now rewrite (Q1 V), (Q2 V).
  - exists t1. auto.
Qed.

Lemma verbose_spec uses ws input a : atsc_means uses ws input a -> (atsc_verbose ws = true <-> In (Flag 4) uses).
Proof.
  intros H. destruct H as [L _ _ _ _ _ _ _ _ _ _]. unfold atsc_verbose. rewrite atsc_same, (line_parse_words atsc_options atsc_table uses ws L).
  apply (has_flag_spec atsc_options uses 4 (Opt None (Some (txt "verbose")) false)); [now apply (line_fits _ _ ws)|reflexivity|reflexivity].
Qed.

(** The option changes nothing but what is printed: the files and the exit status are those of the command without it; and without it nothing is printed. *)
Theorem C85_effects uses ws input a fs sp : atsc_means uses ws input a ->
  exists out, atsc_command_says e p nt ws fs sp = (atsc_command e p nt ws fs sp, out) /\ (~ In (Flag 4) uses -> out = []).
Proof.
  intros H. assert (Hp : atsc_parse ws = Some (input, a)) by (apply C80_atsc; now exists uses). pose proof (verbose_spec uses ws input a H) as V.
  unfold atsc_command_says, atsc_command, atsc_process_args_says, atsc_process_args. rewrite Hp.
  assert (Q : ~ In (Flag 4) uses -> atsc_verbose ws = false) by (intros N; destruct (atsc_verbose ws); [exfalso; apply N, V; reflexivity|reflexivity]).
  destruct (fs input).
  - destruct (single_says (atsc_verbose ws) a fs input) as (t & -> & Q1 & _). destruct (process_single_file e p nt a fs input) as [fs' o]. exists t. split; [reflexivity|auto].
  - destruct (sp input) as [[entries|]|]; [|exists []; auto..].
    destruct (directory_says (atsc_verbose ws) a (map (join input) entries) fs) as (t & -> & Q1). destruct (process_directory e p nt a fs (map (join input) entries)) as [fs' o]. exists t. split; [reflexivity|auto].
Qed.

(** For one file: one line with the samples compressed or decompressed, or nothing if there are none. *)
Theorem C85_one_file uses ws input a fs sp fs' st out : atsc_means uses ws input a -> In (Flag 4) uses -> fs input <> None ->
  atsc_command_says e p nt ws fs sp = (fs', st, out) -> announces a (fs input) out.
Proof.
  intros H V Hf E. assert (Hp : atsc_parse ws = Some (input, a)) by (apply C80_atsc; now exists uses). apply (verbose_spec uses ws input a H) in V.
  unfold atsc_command_says, atsc_process_args_says in E. rewrite Hp, V in E. destruct (fs input) as [b|] eqn:Ef; [|congruence].
  destruct (single_says true a fs input) as (t & Es & _ & A & _). rewrite Es in E. destruct (process_single_file e p nt a fs input) as [f o]. rewrite Ef in A.
  pose proof (f_equal snd E) as Eo. cbn [snd] in Eo. subst t. now apply A.
Qed.

(** What -u --verbose prints is what x.wbro then holds. *)
Theorem C85_uncompress uses ws x old a b fs sp fs' st out : atsc_means uses ws (named x old) a -> In (Flag 4) uses -> In (Flag 2) uses ->
  proper_stem x -> proper_ext old -> fs (named x old) = Some b -> atsc_command_says e p nt ws fs sp = (fs', st, out) -> out <> [] -> st = Some 0 ->
  exists data, line_shown (ascii_text "Output=") data out /\ (Z.of_nat (List.length data) <= 2 ^ 28 -> from_file (fs' (named x ext_wbro)) = Ok (WbSamples data)).
Proof.
  intros H V U Hx Ho Ef E Nout S0. assert (Hp : atsc_parse ws = Some (named x old, a)) by (apply C80_atsc; now exists uses).
  assert (Hu : a_uncompress a = true) by (destruct H; now apply am_uncompress).
  pose proof (C85_one_file uses ws (named x old) a fs sp fs' st out H V ltac:(congruence) E) as A. destruct (C85_effects uses ws (named x old) a fs sp H) as (out' & E' & _).
  assert (Ec : atsc_command e p nt ws fs sp = (fs', st)) by (rewrite E' in E; destruct (atsc_command e p nt ws fs sp); congruence).
  unfold announces, samples_of in A. rewrite Hu, Ef in A. destruct A as [(data & (b' & Eb & Er & Ed) & L)|(_ & C)]; [|contradiction]. assert (b' = b) as -> by congruence.
  exists data. split; [exact L|]. intros Hl. destruct (C81_uncompress_status e p nt ws fs sp x old a b fs' st Hp Hu Hx Ho Ef Ec) as [(_ & o & Eo & _ & _ & F)|[(_ & C & _)|(C & _)]].
  - assert (o = data) as -> by congruence. now apply F.
  - congruence.
  - destruct C; congruence.
Qed.

(** A directory: what is printed is, file by file in the order listed, what a call on each file alone would print, up to the file at which the run stops. *)
Theorem C85_directory : forall a items fs fs' o out, batch a items ->
  process_directory_says e p nt true a fs (map in_name items) = (fs', o, out) ->
  exists tried rest outs, items = tried ++ rest /\ Forall2 (fun i t => announces a (fs (in_name i)) t) tried outs /\ out = concat outs /\ (o = Done -> rest = []).
Proof.
  intros a items. induction items as [|i items IH]; intros fs fs' o out B H; cbn [map process_directory_says] in H.
  - exists [], [], []. assert (out = []) by congruence. subst. repeat (split; [auto|]). auto.
  - assert (Bt := batch_tail _ _ _ B). destruct (batch_head _ _ _ B) as (B1 & B2 & B3).
    destruct (single_says true a fs (in_name i)) as (t1 & E1 & _ & A1 & F1). specialize (A1 eq_refl).
    destruct (fs (in_name i)) as [b|] eqn:En.
    + rewrite E1 in H. destruct (process_single_file e p nt a fs (in_name i)) as [fs1 o1] eqn:Ep. cbn [snd] in F1. destruct o1 as [|er|].
      * assert (L : forall m, m <> out_name a i -> fs1 m = fs m).
        { intros m Hm. assert (X := single_other e p nt a fs (fst i) (snd i) m B1 B2 Hm). fold (in_name i) in X. rewrite Ep in X. exact X. }
        destruct (process_directory_says e p nt true a fs1 (map in_name items)) as [[f2 o2] t2] eqn:Ed. destruct (IH fs1 f2 o2 t2 Bt Ed) as (tried & rest & outs & -> & W1 & W2 & W3).
        exists (i :: tried), rest, (t1 :: outs). split; [reflexivity|]. split; [|split; [cbn [concat]; congruence|intros; apply W3; congruence]]. constructor; [rewrite En; exact A1|].
        assert (Ij : forall j, In j tried -> fs1 (in_name j) = fs (in_name j)).
        { intros j Hj. apply L. apply (in_no_out a j i (i :: tried ++ rest) B); [right; apply in_or_app; now left|now left]. }
        clear - W1 Ij. induction W1 as [|j t js ts Hj W IHW]; [constructor|]. constructor; [rewrite <- (Ij j (or_introl eq_refl)); exact Hj|]. apply IHW. intros k Hk. apply Ij. now right.
      * assert (fs1 = fs) as -> by (apply (not_done_unchanged e p nt a fs (in_name i) fs1 (Failed er) Ep); discriminate). subst t1. rewrite E1, ?Ep in H. cbv beta iota zeta in H. cbn [app] in H.
        exists [i], items, [[]]. split; [reflexivity|]. split; [constructor; [rewrite En; exact A1|constructor]|]. split; [cbn; congruence|]. intros ->. congruence.
      * exists [i], items, [t1]. split; [reflexivity|]. split; [constructor; [rewrite En; exact A1|constructor]|]. split; [cbn; rewrite app_nil_r; congruence|]. intros ->. congruence.
    + destruct (IH fs fs' o out Bt H) as (tried & rest & outs & -> & W1 & W2 & W3). exists (i :: tried), rest, ([] :: outs). split; [reflexivity|]. split; [|split; [exact W2|exact W3]]. constructor; [|exact W1]. rewrite En.
      right. split; [|reflexivity]. intros d C. unfold samples_of, file_samples, csv_values in C. destruct (a_uncompress a); [destruct C as (b & C & _); discriminate C|]. destruct (a_csv a); [|discriminate C].
      destruct C as (s & _ & [(_ & C)|(_ & h & h' & mo & _ & C)]); discriminate C.
Qed.
End Commands.
Print Assumptions C85_effects.
Print Assumptions C85_one_file.
Print Assumptions C85_uncompress.
Print Assumptions C85_directory.

(** * Concrete cases *)
(** atsc --verbose x.wbro and atsc -u --verbose x.bro: every hypothesis above is met, and this is what is printed. *)
Example C85_applies : forall sp, exists uses a,
  atsc_means uses [txt "--verbose"; txt "--compressor"; txt "rle"; txt "x.wbro"] (named w_x ext_wbro) a /\ In (Flag 4) uses /\ one_file (named w_x ext_wbro) <> None /\
  exists fs1, atsc_command_says id_env Dev std_numbers [txt "--verbose"; txt "--compressor"; txt "rle"; txt "x.wbro"] one_file sp = (fs1, Some 0, txt "Input=[3.0, 1.0, 4.0]" ++ [10]) /\
    exists uses2 a2 b, atsc_means uses2 [txt "-u"; txt "--verbose"; txt "x.bro"] (named w_x ext_bro) a2 /\ In (Flag 4) uses2 /\ In (Flag 2) uses2 /\ fs1 (named w_x ext_bro) = Some b /\
      snd (atsc_command_says id_env Dev std_numbers [txt "-u"; txt "--verbose"; txt "x.bro"] fs1 sp) = txt "Output=[3.0, 1.0, 4.0]" ++ [10].
Proof.
  intros sp.
  assert (P1 : exists a, atsc_parse [txt "--verbose"; txt "--compressor"; txt "rle"; txt "x.wbro"] = Some (named w_x ext_wbro, a)) by (eexists; vm_compute; reflexivity).
  assert (P2 : exists a, atsc_parse [txt "-u"; txt "--verbose"; txt "x.bro"] = Some (named w_x ext_bro, a)) by (eexists; vm_compute; reflexivity).
  destruct P1 as [a1 P1]. destruct P2 as [a2 P2]. pose proof P1 as M1. pose proof P2 as M2. apply C80_atsc in M1, M2. destruct M1 as [u1 M1]. destruct M2 as [u2 M2].
  exists u1, a1. split; [exact M1|]. split; [apply (verbose_spec _ _ _ _ M1); vm_compute; reflexivity|]. split; [vm_compute; discriminate|].
  destruct (atsc_command_says id_env Dev std_numbers [txt "--verbose"; txt "--compressor"; txt "rle"; txt "x.wbro"] one_file sp) as [[fs1 st] out] eqn:E. exists fs1.
  assert (Es : st = Some 0) by (apply (f_equal (fun r => snd (fst r))) in E; vm_compute in E; congruence).
  assert (Eo : out = txt "Input=[3.0, 1.0, 4.0]" ++ [10]) by (apply (f_equal snd) in E; vm_compute in E; vm_compute; congruence).
  assert (Ef : fs1 = fst (fst (atsc_command_says id_env Dev std_numbers [txt "--verbose"; txt "--compressor"; txt "rle"; txt "x.wbro"] one_file sp))) by (now rewrite E).
  split; [rewrite Es, Eo; reflexivity|].
  exists u2, a2, (match fs1 (named w_x ext_bro) with Some b => b | None => [] end). split; [exact M2|]. split; [apply (verbose_spec _ _ _ _ M2); vm_compute; reflexivity|].
  split; [destruct M2 as [? ? ? ? ? ? ? ? U ? ?]; apply U; assert (Q : option_map (fun q => a_uncompress (snd q)) (atsc_parse [txt "-u"; txt "--verbose"; txt "x.bro"]) = Some true) by (vm_compute; reflexivity); rewrite P2 in Q; cbn [option_map snd] in Q; congruence|].
  clear E. subst fs1. split; vm_compute; reflexivity.
Qed.

Example C85_texts :
  debug_vec (map from_bits [4607182418800017408; 9223372036854775808; 4591870180066957722; 4846369599423283200; 1; 9218868437227405312; 9221120237041090560; 13826050856027422720]) =
    ascii_text "[1.0, -0.0, 0.1, 1e16, 5e-324, inf, NaN, -0.5]" /\
  debug_f64 (from_bits 4547007122018943789) = ascii_text "0.0001" /\ debug_f64 (from_bits 4547007122018943788) = ascii_text "9.999999999999999e-5" /\
  debug_f64 (from_bits 4846369599423283199) = ascii_text "9999999999999998.0" /\
  debug_f64 (from_bits 4832362400168542209) = ascii_text "1125899906842624.3" /\ ryu_show (from_bits 4832362400168542209) = ascii_text "1125899906842624.2".
Proof. repeat split; vm_compute; reflexivity. Qed.
