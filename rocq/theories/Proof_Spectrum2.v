(** Spectra, the config they are computed from, and vacuum layers. *)
From Coq Require Import Reals ZArith String List Bool Lra Lia Psatz FunctionalExtensionality.
From Verif Require Import Base BaseLemmas PyVal Spec_Config Model_Config Proof_Config Model_Units Proof_Units Model_EpsGrid Model_Coeffs Spec_Coeffs Proof_Coeffs Model_FDTD Model_Register
  Spec_FDTD Spec_Register Model_Layout Spec_Layout Proof_Register Proof_Register2 Proof_Material
  Proof_FDTD Proof_Steps Proof_Reset Proof_Layout Proof_Spectrum.
Import ListNotations.
Open Scope R_scope.

(** ** Order of the spectra *)

Lemma spectra_nth c : forall wls i eps T Rr, spectra c wls i eps = Ok (T, Rr) ->
  length T = length wls /\ length Rr = length wls
  /\ forall k wl, nth_error wls k = Some wl -> exists slice t r, nth_error eps (i + k) = Some slice
       /\ one_wavelength c wl slice = Ok (t, r) /\ nth_error T k = Some t /\ nth_error Rr k = Some r.
Proof.
  induction wls as [|wl wls IH]; intros i eps T Rr H; cbn [spectra] in H.
  - inversion H. repeat split. intros [|k] ? ?; discriminate.
  - apply bind_ok in H as (slice & H1 & H). apply bind_ok in H as ([t r] & H2 & H). apply bind_ok in H as ([T' R'] & H3 & H).
    inversion H; subst. destruct (IH _ _ _ _ H3) as (L1 & L2 & N). cbn [length fst snd]. repeat split; try lia.
    intros [|k] w Hk.
    + cbn in Hk. inversion Hk; subst. exists slice, t, r. rewrite Nat.add_0_r. split; [|auto].
      unfold get in H1. destruct (nth_error eps i); inversion H1; reflexivity.
    + cbn in Hk. destruct (N k w Hk) as (s & t' & r' & A & B & C & D). exists s, t', r'.
      replace (i + S k)%nat with (S i + k)%nat by lia. auto.
Qed.

Lemma spectra_total c : forall wls i eps,
  (exists TR, spectra c wls i eps = Ok TR) <->
  (forall k wl, nth_error wls k = Some wl -> exists slice tr, nth_error eps (i + k) = Some slice /\ one_wavelength c wl slice = Ok tr).
Proof.
  intros wls. induction wls as [|wl wls IH]; intros i eps.
  - split; [intros _ [|k] ? ?; discriminate|]. intros _. eexists. reflexivity.
  - split.
    + intros [[T Rr] H] k w Hk. destruct (spectra_nth _ _ _ _ _ _ H) as (_ & _ & N).
      destruct (N k w Hk) as (s & t & r & A & B & _). eauto.
    + intros H. cbn [spectra]. destruct (H 0%nat wl eq_refl) as (s & tr & A & B). rewrite Nat.add_0_r in A.
      unfold get. rewrite A. cbn [bind]. rewrite B. cbn [bind].
      destruct (proj2 (IH (S i) eps)) as [TR E].
      { intros k w Hk. destruct (H (S k) w Hk) as (s' & tr' & A' & B'). exists s', tr'.
        replace (S i + k)%nat with (i + S k)%nat by lia. auto. }
      rewrite E. cbn [bind]. eauto.
Qed.

(** ** The config *)

Lemma lookup_set c k v k' : lookup (cfg_set c k v) k' = if String.eqb k k' then Some v else lookup c k'.
Proof.
  induction c as [|[a b] r IH]; cbn [cfg_set lookup].
  - rewrite (String.eqb_sym k' k). reflexivity.
  - destruct (String.eqb_spec k a) as [->|N]; cbn [lookup].
    + rewrite (String.eqb_sym k' a). destruct (String.eqb a k'); reflexivity.
    + rewrite IH, (String.eqb_sym k' a). destruct (String.eqb_spec a k') as [->|]; [|reflexivity].
      destruct (String.eqb_spec k k'); [congruence|reflexivity].
Qed.
Lemma set_same c k v : lookup c k = Some v -> cfg_set c k v = c.
Proof.
  induction c as [|[a b] r IH]; cbn [cfg_set lookup]; [discriminate|].
  destruct (String.eqb_spec k a) as [->|N].
  - intros H. inversion H. reflexivity.
  - intros H. rewrite IH by exact H. reflexivity.
Qed.
Lemma getitem_set c k v k' : getitem (cfg_set c k v) k' = if String.eqb k k' then Ok v else getitem c k'.
Proof. unfold getitem. rewrite lookup_set. destruct (String.eqb k k'); reflexivity. Qed.

(** [c'] has the entries of [c], but for the keys in [ks]. *)
Definition agree_but (ks : list string) (c c' : config) : Prop :=
  forall k, ~ In k ks -> lookup c' k = lookup c k.

Lemma frequency_points_agree c c' : agree_but ["target_frequencies"; "PER_LAYER_THICKNESS"; "FDTD_grid_scaling"]%string c c' ->
  forall c1 wls, frequency_points c = Ok (c1, wls) ->
  exists v, frequency_points c' = Ok (cfg_set c' "target_frequencies" v, wls) /\ c1 = cfg_set c "target_frequencies" v.
Proof.
  intros A c1 wls H. unfold frequency_points, get_item, get_int, get_str, getitem in *.
  rewrite (A "physical_wavelength_range"%string), (A "N_freq"%string), (A "freq_distribution"%string)
    by (cbn; intuition discriminate).
  apply bind_ok in H as (w0 & -> & H). cbn [bind]. apply bind_ok in H as (w1 & -> & H). cbn [bind].
  apply bind_ok in H as (n & -> & H). cbn [bind]. apply bind_ok in H as (d & -> & H). cbn [bind].
  apply bind_ok in H as (fp & -> & H). cbn [bind]. inversion H. eauto.
Qed.

Lemma length_concat_repeat {A} (l : list A) n : length (concat (repeat l n)) = (n * length l)%nat.
Proof. induction n as [|n IH]; [reflexivity|]. cbn. rewrite app_length, IH. reflexivity. Qed.

(** What [prepare_fdtd] leaves in the config. *)
Lemma prepare_inv c c' wls : prepare_fdtd c = Ok (c', wls) ->
  agree_but ["target_frequencies"; "PER_LAYER_THICKNESS"; "FDTD_grid_scaling"]%string c c'
  /\ (exists l n, entry c "PER_LAYER_THICKNESS" (VList l) /\ get_int c "N_layers" = Ok n
       /\ entry c' "PER_LAYER_THICKNESS" (VList (if Nat.eqb (length l) 1 && (1 <? n)%Z then concat (repeat l (Z.to_nat n)) else l)))
  /\ prepare_fdtd c' = Ok (c', wls).
Proof.
  unfold prepare_fdtd. intros H. apply bind_ok in H as ([c1 wls'] & H1 & H). cbn [fst snd] in H.
  apply bind_ok in H as (c2 & H2 & H). apply bind_ok in H as (s & H3 & H). inversion H; subst; clear H.
  assert (exists v, c1 = cfg_set c "target_frequencies" v) as [v0 EV].
  { unfold frequency_points in H1. apply bind_ok in H1 as (w0 & _ & H1). apply bind_ok in H1 as (w1 & _ & H1).
    apply bind_ok in H1 as (n & _ & H1). apply bind_ok in H1 as (d & _ & H1). apply bind_ok in H1 as (fp & _ & H1). inversion H1. eauto. }
  assert (G2 : exists l n, entry c "PER_LAYER_THICKNESS" (VList l) /\ get_int c "N_layers" = Ok n
     /\ c2 = if Nat.eqb (length l) 1 && (1 <? n)%Z then cfg_set c1 "PER_LAYER_THICKNESS" (VList (concat (repeat l (Z.to_nat n)))) else c1).
  { unfold spread_thickness in H2. apply bind_ok in H2 as (v & E1 & H2). apply bind_ok in H2 as (n & E2 & H2).
    destruct v; try discriminate. inversion H2. exists l, n. subst c1. unfold get_int in *.
    rewrite getitem_set in E1, E2. cbn in E1, E2. apply getitem_entry in E1. auto. }
  destruct G2 as (l & n & L1 & L2 & EC2).
  assert (AG : agree_but ["target_frequencies"; "PER_LAYER_THICKNESS"; "FDTD_grid_scaling"]%string c (cfg_set c2 "FDTD_grid_scaling" (VFloat (Fin s)))).
  { intros k Hk. rewrite lookup_set. destruct (String.eqb_spec "FDTD_grid_scaling" k) as [<-|N1]; [cbn in Hk; intuition|].
    assert (E : lookup c1 k = lookup c k).
    { rewrite EV, lookup_set. destruct (String.eqb_spec "target_frequencies" k) as [<-|N2]; [cbn in Hk; intuition|reflexivity]. }
    rewrite EC2. destruct (_ && _); [|exact E]. rewrite lookup_set.
    destruct (String.eqb_spec "PER_LAYER_THICKNESS" k) as [<-|N2]; [cbn in Hk; intuition|exact E]. }
  set (l' := if Nat.eqb (length l) 1 && (1 <? n)%Z then concat (repeat l (Z.to_nat n)) else l).
  set (cc := cfg_set c2 "FDTD_grid_scaling" (VFloat (Fin s))) in *.
  assert (TH : lookup cc "PER_LAYER_THICKNESS" = Some (VList l')).
  { unfold cc. rewrite lookup_set. cbn [String.eqb Ascii.eqb Bool.eqb]. rewrite EC2. unfold l'.
    destruct (_ && _); [rewrite lookup_set; reflexivity|]. rewrite EV, lookup_set. exact L1. }
  split; [exact AG|]. split; [exists l, n; auto|].
  destruct (frequency_points_agree _ _ AG _ _ H1) as (v & FP & EV').
  assert (TF : lookup cc "target_frequencies" = Some v).
  { unfold cc. rewrite lookup_set. cbn [String.eqb Ascii.eqb Bool.eqb]. rewrite EC2.
    destruct (_ && _); [rewrite lookup_set; cbn [String.eqb Ascii.eqb Bool.eqb]|];
      rewrite EV', lookup_set; reflexivity. }
  rewrite FP. cbn [bind fst snd]. rewrite (set_same _ _ _ TF).
  assert (SP : spread_thickness cc = Ok cc).
  { unfold spread_thickness, getitem. rewrite TH. cbn [bind].
    assert (GI : get_int cc "N_layers" = Ok n).
    { unfold get_int, getitem in *. rewrite (AG "N_layers"%string) by (cbn; intuition discriminate). exact L2. }
    rewrite GI. cbn [bind]. f_equal. unfold l'.
    destruct (Nat.eqb_spec (length l) 1) as [E1|E1]; cbn [andb].
    2: { destruct (Nat.eqb_spec (length l) 1); [contradiction|reflexivity]. }
    destruct (Z.ltb_spec 1 n) as [E2|E2]; cbn [andb].
    - destruct (Nat.eqb_spec (length (concat (repeat l (Z.to_nat n)))) 1) as [E3|E3]; [|reflexivity].
      rewrite length_concat_repeat in E3. rewrite E1 in E3. lia.
    - rewrite andb_false_r. reflexivity. }
  rewrite SP. cbn [bind].
  assert (GS : grid_scaling cc = Ok s).
  { rewrite <- H3. unfold grid_scaling, get_item, get_int, getitem.
    assert (A2 : forall k, ~ In k ["target_frequencies"; "PER_LAYER_THICKNESS"; "FDTD_grid_scaling"]%string -> lookup c2 k = lookup c k).
    { intros k Hk. rewrite <- (AG k Hk). unfold cc. rewrite lookup_set.
      destruct (String.eqb_spec "FDTD_grid_scaling" k) as [<-|]; [cbn in Hk; intuition|reflexivity]. }
    rewrite !AG, !A2 by (cbn; intuition discriminate). reflexivity. }
  rewrite GS. cbn [bind]. f_equal. f_equal. apply set_same. unfold cc. rewrite lookup_set. reflexivity.
Qed.

(** The config afterwards: same entries but for the three; a second call with
    it returns the same, and leaves the config as it is. *)
Lemma spectrum_config eps c r t c' : compute_spectrum_fdtd eps c = Ok (r, t, c') ->
  (forall k, ~ In k ["target_frequencies"; "PER_LAYER_THICKNESS"; "FDTD_grid_scaling"]%string -> forall v, entry c' k v <-> entry c k v)
  /\ (exists l n, entry c "PER_LAYER_THICKNESS" (VList l) /\ (exists v, entry c "N_layers" v /\ num_of v = Some (Fin (IZR n)))
      /\ (length l = 1%nat -> (1 < n)%Z -> forall x, In x l -> entry c' "PER_LAYER_THICKNESS" (VList (repeat x (Z.to_nat n))))
      /\ (length l <> 1%nat \/ (n <= 1)%Z -> entry c' "PER_LAYER_THICKNESS" (VList l)))
  /\ compute_spectrum_fdtd eps c' = Ok (r, t, c').
Proof.
  unfold compute_spectrum_fdtd. intros H. apply bind_ok in H as ([c1 wls] & H1 & H). cbn [fst snd] in H.
  apply bind_ok in H as (f & H2 & H). apply bind_ok in H as (tr & H3 & H). inversion H; subst; clear H.
  destruct (prepare_inv _ _ _ H1) as (AG & (l & n & L1 & L2 & L3) & I). split; [|split].
  - intros k Hk v. unfold entry. rewrite (AG k Hk). reflexivity.
  - exists l, n. split; [exact L1|]. split; [|split].
    + unfold get_int in L2. apply bind_ok in L2 as (v & E & L2). apply getitem_entry in E. exists v. split; [exact E|].
      destruct v as [| |b| | |]; inversion L2; subst; cbn; try reflexivity. destruct b; reflexivity.
    + intros E1 E2 x Hx. destruct l as [|y [|]]; try discriminate. destruct Hx as [->|[]].
      cbn [length Nat.eqb andb] in L3. destruct (Z.ltb_spec 1 n); [|lia].
      assert (E : concat (repeat [x] (Z.to_nat n)) = repeat x (Z.to_nat n)).
      { clear. induction (Z.to_nat n) as [|m IH]; [reflexivity|]. cbn. rewrite IH. reflexivity. }
      rewrite E in L3. exact L3.
    + intros E. assert ((length l =? 1)%nat && (1 <? n)%Z = false) as X.
      { destruct E as [E|E]; [apply Nat.eqb_neq in E; rewrite E; reflexivity|].
        destruct (Z.ltb_spec 1 n); [lia|]. apply andb_false_r. }
      rewrite X in L3. exact L3.
  - rewrite I. cbn [bind fst snd]. rewrite H2. cbn [bind]. rewrite H3. reflexivity.
Qed.
