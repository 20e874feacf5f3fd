(** C22: the error metrics. *)
From Coq Require Import List ZArith Bool Lia Reals Lra.
From Flocq Require Import Core IEEE754.BinarySingleNaN IEEE754.Binary IEEE754.Bits.
From Verif Require Import Base Model_Float Spec FloatFacts ArithFacts Model_Utils MetricFacts.
Import ListNotations.
Open Scope Z_scope.

(** A double that is neither NaN nor negative: at least zero, or plus infinity. *)
Definition non_negative (x : f64) : Prop := fle f0 x = true.

(** *** Panic exactly on different lengths *)
Theorem C22_panics_iff_lengths_differ : forall m original generated,
  (exists err, method_error m original generated = Ok err) <-> length original = length generated.
Proof.
  intros m o g. unfold method_error, error_mse, error_nmsqe, error_mae, error_mape, error_smape.
  destruct (Nat.eqb_spec (length o) (length g)) as [E|E]; cbn [negb].
  - split; [auto|]. intros _. destruct m; eauto. destruct (smape_loop o g f0 f0). eauto.
  - split; [|intros; congruence]. intros [err H]. destruct m; discriminate.
Qed.
Print Assumptions C22_panics_iff_lengths_differ.

(** *** Never negative *)
Lemma nneg_fle x : nneg x -> fis_nan x = true \/ non_negative x.
Proof.
  intros [H|H]; [now left|]. destruct x as [s|s|s pl Hx|s m e Hx]; cbn in H; subst; [right|right|left|right]; reflexivity.
Qed.
Theorem C22_never_negative : forall m original generated err,
  Z.of_nat (length original) <= 2 ^ 64 ->
  method_error m original generated = Ok err -> fis_nan err = true \/ non_negative err.
Proof. intros m o g err Hl H. apply nneg_fle. eapply method_error_nneg; eassumption. Qed.
Print Assumptions C22_never_negative.

(** *** A series against itself *)
Theorem C22_self_error_zero : forall data,
  data <> [] -> Z.of_nat (length data) <= 2 ^ 53 -> Forall finite data ->
  (exists err, method_error Mse data data = Ok err /\ finite err /\ R64 err = 0%R) /\
  (exists err, method_error Mae data data = Ok err /\ finite err /\ R64 err = 0%R) /\
  (Forall (fun x => R64 x <> 0%R) data ->
     exists err, method_error Mape data data = Ok err /\ finite err /\ R64 err = 0%R).
Proof.
  intros data Hne Hl Hf. destruct (len_pos data Hne Hl) as [Fl Rl].
  unfold method_error, error_mse, error_mae, error_mape. rewrite Nat.eqb_refl. cbn [negb].
  split; [|split; [|intros Hz]]; (eexists; split; [reflexivity|]); apply zero_div; try lra; apply zero_sum, zip_map_self;
    [| |rewrite Forall_forall in *; intros x Hx]; try (eapply Forall_impl; [|exact Hf]; intros x Fx; cbn beta).
  - apply zero_square. now apply zero_self.
  - apply zero_fabs. now apply zero_self.
  - apply zero_fabs, zero_div; [apply zero_self; auto|auto].
Qed.
Print Assumptions C22_self_error_zero.

(** *** When the default metric (MAPE) is NaN *)
Definition pos_num (x : f64) : Prop := fis_nan x = false /\ Binary.Bsign 53 1024 x = false.

Lemma pos_num_fadd x y : pos_num x -> pos_num y -> pos_num (fadd x y).
Proof.
  intros [Nx Sx] [Ny Sy].
  assert (H : nneg (fadd x y)) by (apply nneg_fadd; right; assumption).
  assert (N : fis_nan (fadd x y) = false).
  { destruct (fis_finite x) eqn:Fx; [destruct (fis_finite y) eqn:Fy|].
    - pose proof (Binary.Bplus_correct 53 1024 eq_refl eq_refl binop_nan_pl64 mode_NE x y Fx Fy) as HP.
      destruct (Rlt_bool _ _).
      + destruct HP as (_ & HP & _). unfold fadd, b64_plus. destruct (Binary.Bplus 53 1024 _ _ _ _ x y); try discriminate; reflexivity.
      + destruct HP as (HP & _). unfold fadd, b64_plus. destruct (Binary.Bplus 53 1024 _ _ _ _ x y); try reflexivity.
        unfold BinarySingleNaN.binary_overflow in HP. cbn in HP. discriminate.
    - destruct y as [s|s|s pl Hy|s m e Hy]; try discriminate. destruct x as [s'|s'|s' pl' Hx|s' m' e' Hx]; try discriminate; reflexivity.
    - destruct x as [s|s|s pl Hx|s m e Hx]; try discriminate. cbn in Sx. subst s.
      destruct y as [s'|s'|s' pl' Hy|s' m' e' Hy]; try discriminate; try reflexivity. cbn in Sy. subst s'. reflexivity. }
  split; [exact N|]. destruct H as [H|H]; [congruence|exact H].
Qed.

Lemma pos_num_fold l acc : pos_num acc -> Forall pos_num l -> pos_num (fold_left fadd l acc).
Proof.
  intros Ha Hl. revert acc Ha. induction Hl as [|x l Hx Hl IH]; intros acc Ha; [exact Ha|]. cbn [fold_left].
  apply IH. now apply pos_num_fadd.
Qed.

Lemma sub_not_nan x y : finite x -> finite y -> fis_nan (fsub x y) = false.
Proof.
  intros Fx Fy. pose proof (Binary.Bminus_correct 53 1024 eq_refl eq_refl binop_nan_pl64 mode_NE x y Fx Fy) as HP.
  destruct (Rlt_bool _ _).
  - destruct HP as (_ & HP & _). unfold fsub, b64_minus. destruct (Binary.Bminus 53 1024 _ _ _ _ x y); try discriminate; reflexivity.
  - destruct HP as (HP & _). unfold fsub, b64_minus. destruct (Binary.Bminus 53 1024 _ _ _ _ x y); try reflexivity.
    unfold BinarySingleNaN.binary_overflow in HP. cbn in HP. discriminate.
Qed.

Lemma div_not_nan x y : fis_nan x = false -> finite y -> R64 y <> 0%R -> fis_nan (fdiv x y) = false.
Proof.
  intros Nx Fy Hy.
  destruct y as [s|s|s pl H|s m e H]; try discriminate; [exfalso; apply Hy; reflexivity|].
  destruct x as [s'|s'|s' pl' H'|s' m' e' H']; try discriminate; try reflexivity.
  pose proof (Binary.Bdiv_correct 53 1024 eq_refl eq_refl binop_nan_pl64 mode_NE (B754_finite 53 1024 s' m' e' H') (B754_finite 53 1024 s m e H) Hy) as HP.
  destruct (Rlt_bool _ _).
  - destruct HP as (_ & HP & _). unfold fdiv, b64_div. destruct (Binary.Bdiv 53 1024 _ _ _ _ _ _); try discriminate; reflexivity.
  - unfold fdiv, b64_div. destruct (Binary.Bdiv 53 1024 _ _ _ _ _ _); try reflexivity.
    unfold BinarySingleNaN.binary_overflow in HP. cbn in HP. discriminate.
Qed.

Lemma zero_dec x : finite x -> zero x \/ R64 x <> 0%R.
Proof. intros F. destruct (Req_dec (R64 x) 0); [left; now split|now right]. Qed.

Lemma mape_term_pos o g : finite o -> finite g -> ~ (zero o /\ zero g) -> pos_num (fabs (fdiv (fsub g o) o)).
Proof.
  intros Fo Fg Hn.
  assert (H : fis_nan (fdiv (fsub g o) o) = false); [|split; destruct (fdiv (fsub g o) o); try discriminate; reflexivity].
  destruct (zero_dec o Fo) as [Zo|No]; [|apply div_not_nan; auto using sub_not_nan].
  destruct (zero_dec g Fg) as [Zg|Ng]; [exfalso; auto|].
  destruct (fsub_zero_r g o Fg Fo (proj2 Zo)) as [F R].
  destruct o as [s|s|s pl H|s m e H]; try discriminate; [|destruct Zo as [_ Zo]; unfold R64 in Zo; cbn in Zo; apply eq_0_F2R in Zo; destruct s; discriminate].
  destruct (fsub g _) as [s'|s'|s' pl' H'|s' m' e' H']; try discriminate; [|reflexivity]. exfalso. apply Ng. rewrite <- R. reflexivity.
Qed.

Lemma mape_not_nan original generated err : original <> [] -> Z.of_nat (length original) <= 2 ^ 53 ->
  Forall finite original -> Forall finite generated ->
  Forall (fun t => pos_num t) (zip_map (fun o g => fabs (fdiv (fsub g o) o)) original generated) ->
  method_error Mape original generated = Ok err -> fis_nan err = false.
Proof.
  intros Hne Hl Ho Hg Ht H. unfold method_error, error_mape in H. destruct (negb _); [discriminate|]. apply ok_inj in H. subst err.
  destruct (len_pos original Hne Hl) as [Fl Rl]. apply div_not_nan; [|exact Fl|lra].
  apply pos_num_fold; [split; reflexivity|exact Ht].
Qed.

(** The default metric of two series of finite samples is NaN exactly when some zero sample
    is reproduced as zero (0/0): the better the reproduction, the less the metric says. *)
Theorem C22_mape_nan_iff : forall original generated err,
  original <> [] -> Z.of_nat (length original) <= 2 ^ 53 ->
  Forall finite original -> Forall finite generated ->
  calculate_error original generated = Ok err ->
  (fis_nan err = true <->
   exists i o g, nth_error original i = Some o /\ nth_error generated i = Some g /\ R64 o = 0%R /\ R64 g = 0%R).
Proof.
  intros original generated err Hne Hl Ho Hg H. split.
  - intros Hn.
    destruct (list_eq_dec Bool.bool_dec (zip_map (fun o g => fis_nan (fabs (fdiv (fsub g o) o))) original generated)
                (map (fun _ => false) (zip_map (fun _ _ => tt) original generated))) as [E|E].
    + exfalso. assert (fis_nan err = false); [|congruence].
      eapply mape_not_nan; try eassumption. clear -E Ho Hg. revert generated Hg E.
      induction Ho as [|o l Fo Hl IH]; intros [|g l'] Hg E; cbn [zip_map map] in *; try constructor.
      * assert (HN : fis_nan (fabs (fdiv (fsub g o) o)) = false) by congruence.
        split; [exact HN|]. clear -HN. destruct (fdiv (fsub g o) o); try discriminate; reflexivity.
      * apply IH; [now inversion Hg|congruence].
    + clear -E Ho Hg. revert generated Hg E. induction Ho as [|o l Fo Hl IH]; intros [|g l'] Hg E; cbn [zip_map map] in *; try (exfalso; apply E; reflexivity).
      inversion Hg as [|? ? Fg Hg']; subst.
      destruct (zero_dec o Fo) as [Zo|No]; [destruct (zero_dec g Fg) as [Zg|Ng]|].
      * exists 0%nat, o, g. destruct Zo, Zg. repeat split; assumption.
      * destruct (mape_term_pos o g Fo Fg) as [Hp _]; [intros [_ [_ Hz]]; auto|]. rewrite Hp in E.
        destruct (IH l' Hg') as (i & o' & g' & Hx); [intros E2; apply E; now f_equal|]. exists (S i), o', g'. exact Hx.
      * destruct (mape_term_pos o g Fo Fg) as [Hp _]; [intros [[_ Hz] _]; auto|]. rewrite Hp in E.
        destruct (IH l' Hg') as (i & o' & g' & Hx); [intros E2; apply E; now f_equal|]. exists (S i), o', g'. exact Hx.
  - intros (i & o & g & Hio & Hig & Zo & Zg).
    unfold calculate_error, method_error, error_mape in H. destruct (negb _); [discriminate|]. apply ok_inj in H. subst err.
    apply nan_fdiv_l, nan_fold. right. apply Exists_exists. exists (fabs (fdiv (fsub g o) o)). split.
    + clear -Hio Hig. revert i original Hio Hig. induction generated as [|b l' IH]; intros [|i] [|a l] Hio Hig; try discriminate; cbn in *.
      * injection Hio as <-. injection Hig as <-. now left.
      * right. eapply IH; eassumption.
    + assert (Fo : finite o) by (rewrite Forall_forall in Ho; eapply Ho, nth_error_In; eauto).
      assert (Fg : finite g) by (rewrite Forall_forall in Hg; eapply Hg, nth_error_In; eauto).
      apply nan_fabs, zero_zero_nan; [|now split]. destruct (fsub_zero_r g o Fg Fo Zo) as [F R]. split; [exact F|congruence].
Qed.
Print Assumptions C22_mape_nan_iff.

(** Instances: the MAPE of [1,2,4] against [1,3,4] is 1/6; of [0,2] against itself NaN; SMAPE of
    zeros against zeros NaN too. *)
Example C22_example :
  (do x <- calculate_error [int_as_f64 1; int_as_f64 2; int_as_f64 4] [int_as_f64 1; int_as_f64 3; int_as_f64 4]; Ok (to_bits x))
    = Ok (to_bits (fdiv (fdiv (int_as_f64 1) (int_as_f64 2)) (int_as_f64 3))) /\
  (do x <- calculate_error [int_as_f64 0; int_as_f64 2] [int_as_f64 0; int_as_f64 2]; Ok (fis_nan x)) = Ok true /\
  (do x <- method_error Smape [int_as_f64 0] [int_as_f64 0]; Ok (fis_nan x)) = Ok true /\
  (exists p, method_error Mae [int_as_f64 1] [] = Panic p).
Proof. repeat split; try (vm_compute; reflexivity). eexists. reflexivity. Qed.
