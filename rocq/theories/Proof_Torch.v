From Coq Require Import Reals ZArith List Bool Lra Lia.
From Verif Require Import Base BaseLemmas Cplx CplxLemmas Model_Torch Spec_Torch.
Import ListNotations.
Open Scope R_scope.

Lemma dtype_eqb_spec a b : dtype_eqb a b = true <-> a = b.
Proof. destruct a as [|[]|[]], b as [|[]|[]]; cbn; split; intros H; try reflexivity; try discriminate. Qed.

Lemma dtype_eqb_refl a : dtype_eqb a a = true.
Proof. apply dtype_eqb_spec. reflexivity. Qed.

(** ** Sums *)
Lemma fold_add_acc l x : fold_right Cadd x l = Cadd (fold_right Cadd C0 l) x.
Proof. induction l as [|y l IH]; cbn; [destruct x; unfold Cadd, C0; cbn; f_equal; ring|]. rewrite IH. destruct y, x, (fold_right Cadd C0 l). unfold Cadd. cbn. f_equal; ring. Qed.

Lemma sum_total n f : sum_to n f = total n f.
Proof.
  unfold sum_to. induction n as [|n IH]; [reflexivity|]. rewrite seq_S, map_app, fold_right_app. cbn [map fold_right Nat.add].
  rewrite fold_add_acc, IH. cbn [total]. f_equal. destruct (f n). unfold Cadd, C0. cbn. f_equal; ring.
Qed.

Lemma total_ext n f g : (forall k, (k < n)%nat -> f k = g k) -> total n f = total n g.
Proof. induction n as [|n IH]; intros H; [reflexivity|]. cbn [total]. rewrite IH by (intros; apply H; lia). rewrite H by lia. reflexivity. Qed.

Lemma total_zero n f : (forall k, (k < n)%nat -> f k = C0) -> total n f = C0.
Proof. induction n as [|n IH]; intros H; [reflexivity|]. cbn [total]. rewrite IH by (intros; apply H; lia). rewrite H by lia. unfold Cadd, C0. cbn. f_equal; ring. Qed.

Lemma total_add n f g : total n (fun k => Cadd (f k) (g k)) = Cadd (total n f) (total n g).
Proof.
  induction n as [|n IH]; [cbn [total]; unfold Cadd, C0; cbn; f_equal; ring|]. cbn [total]. rewrite IH.
  destruct (total n f), (total n g), (f n), (g n). unfold Cadd. cbn. f_equal; ring.
Qed.

Lemma total_scale n c f : total n (fun k => Cmul c (f k)) = Cmul c (total n f).
Proof.
  induction n as [|n IH]; [cbn [total]; destruct c; unfold Cmul, C0; cbn; f_equal; ring|]. cbn [total]. rewrite IH.
  destruct c, (total n f), (f n). unfold Cadd, Cmul. cbn. f_equal; ring.
Qed.

Lemma total_swap n m f : total n (fun i => total m (fun j => f i j)) = total m (fun j => total n (fun i => f i j)).
Proof.
  induction n as [|n IH]; [cbn; symmetry; apply total_zero; reflexivity|]. cbn [total]. rewrite IH. symmetry. apply total_add.
Qed.

Lemma total_single n f k : (k < n)%nat -> (forall j, (j < n)%nat -> j <> k -> f j = C0) -> total n f = f k.
Proof.
  induction n as [|n IH]; intros H Z; [lia|]. cbn [total]. destruct (Nat.eq_dec k n) as [->|N].
  - rewrite total_zero by (intros j Hj; apply Z; lia). destruct (f n). unfold Cadd, C0. cbn. f_equal; ring.
  - rewrite IH by (lia || (intros; apply Z; lia)). rewrite (Z n) by lia. destruct (f k). unfold Cadd, C0. cbn. f_equal; ring.
Qed.

(** ** Permuting dimensions *)
Lemma wrap_dim_spec n d k : wrap_dim n d = Ok k <-> denotes n d k.
Proof.
  unfold wrap_dim, denotes. destruct (Z.leb (- Z.of_nat n) d && Z.ltb d (Z.of_nat n)) eqn:E.
  - apply andb_prop in E as [E1 E2]. apply Z.leb_le in E1. apply Z.ltb_lt in E2. destruct (Z.ltb d 0) eqn:E3; [apply Z.ltb_lt in E3|apply Z.ltb_ge in E3].
    + split; [intros [= <-]; lia|intros [H1 H2]; f_equal; lia].
    + split; [intros [= <-]; lia|intros [H1 H2]; f_equal; lia].
  - split; [discriminate|]. intros [H1 H2]. exfalso. apply andb_false_iff in E as [E|E]; [apply Z.leb_gt in E|apply Z.ltb_ge in E]; lia.
Qed.

Lemma existsb_in k l : existsb (Nat.eqb k) l = true <-> In k l.
Proof.
  rewrite existsb_exists. split; [intros (x & H1 & H2); apply Nat.eqb_eq in H2; subst; exact H1|]. intros H. exists k. split; [exact H|apply Nat.eqb_refl].
Qed.

Lemma wrap_dims_spec n ds : forall seen ks, wrap_dims n ds seen = Ok ks <-> Forall2 (denotes n) ds ks /\ NoDup ks /\ (forall k, In k ks -> ~ In k seen).
Proof.
  induction ds as [|d ds IH]; intros seen ks; cbn [wrap_dims].
  - split; [intros [= <-]; split; [constructor|split; [constructor|intros k []]]|]. intros (H & _). inversion H. reflexivity.
  - destruct (wrap_dim n d) as [k|e] eqn:E; cbn [bind].
    + apply wrap_dim_spec in E. destruct (existsb (Nat.eqb k) seen) eqn:X.
      * split; [discriminate|]. intros (H & _ & H3). inversion H as [|d' k' ds' ks' H1 H2]; subst. exfalso.
        assert (k' = k) by (destruct E as [E0 E1], H1 as [F0 F1]; lia). subst k'. apply (H3 k); [left; reflexivity|]. apply existsb_in, X.
      * assert (NX : ~ In k seen) by (intros Hk; apply existsb_in in Hk; congruence).
        destruct (wrap_dims n ds (k :: seen)) as [r|e] eqn:W; cbn [bind].
        -- apply IH in W as (W1 & W2 & W3). split.
           ++ intros [= <-]. split; [constructor; assumption|]. split.
              ** constructor; [intros Hk; apply (W3 k Hk); left; reflexivity|exact W2].
              ** intros j [<-|Hj]; [exact NX|]. intros Hs. apply (W3 j Hj). right. exact Hs.
           ++ intros (H & H2 & H3). inversion H as [|d' k' ds' ks' H1 H4]; subst. inversion H2 as [|? ? N1 N2]; subst.
              assert (k' = k) by (destruct E as [E0 E1], H1 as [F0 F1]; lia). subst k'. f_equal. f_equal.
              assert (Q : wrap_dims n ds (k :: seen) = Ok ks').
              { apply IH. split; [exact H4|]. split; [exact N2|]. intros j Hj [<-|Hs]; [contradiction|]. exact (H3 j (or_intror Hj) Hs). }
              assert (Q' : wrap_dims n ds (k :: seen) = Ok r) by (apply IH; auto). congruence.
        -- split; [discriminate|]. intros (H & H2 & H3). inversion H as [|d' k' ds' ks' H1 H4]; subst. inversion H2 as [|? ? N1 N2]; subst.
           assert (k' = k) by (destruct E as [E0 E1], H1 as [F0 F1]; lia). subst k'.
           assert (Q : wrap_dims n ds (k :: seen) = Ok ks').
           { apply IH. split; [exact H4|]. split; [exact N2|]. intros j Hj [<-|Hs]; [contradiction|]. exact (H3 j (or_intror Hj) Hs). }
           congruence.
    + split; [discriminate|]. intros (H & _). inversion H as [|d' k' ds' ks' H1 H2]; subst. apply wrap_dim_spec in H1. congruence.
Qed.

Lemma place_nth k ks : In k ks -> nth_error ks (place k ks) = Some k.
Proof.
  induction ks as [|x ks IH]; intros H; [destruct H|]. cbn [place]. destruct (Nat.eqb x k) eqn:E; [apply Nat.eqb_eq in E; subst; reflexivity|].
  destruct H as [->|H]; [rewrite Nat.eqb_refl in E; discriminate|]. exact (IH H).
Qed.

Lemma permute_entries t ds ks : Forall2 (denotes (length (t_shape t))) ds ks -> NoDup ks -> length ds = length (t_shape t) ->
  exists u, permute t ds = Ok u /\ t_dtype u = t_dtype t /\ t_shape u = map (fun k => nth k (t_shape t) 0%nat) ks
    /\ forall i, inside i (t_shape t) -> t_at u (map (fun k => nth k i 0%nat) ks) = t_at t i.
Proof.
  intros F N L. unfold permute. rewrite L, Nat.eqb_refl. cbn [negb].
  assert (W : wrap_dims (length (t_shape t)) ds [] = Ok ks) by (apply wrap_dims_spec; auto). rewrite W. cbn [bind].
  eexists. split; [reflexivity|]. cbn. split; [reflexivity|]. split; [reflexivity|]. intros i I.
  assert (Li : length i = length (t_shape t)) by (clear -I; induction I; cbn; congruence).
  assert (Lk : length ks = length (t_shape t)) by (rewrite <- L; clear -F; induction F; cbn; congruence).
  assert (Ik : forall k, (k < length (t_shape t))%nat -> In k ks).
  { intros k Hk. assert (Inc : incl ks (seq 0 (length (t_shape t)))).
    { intros j Hj. apply in_seq. clear -F Hj. induction F as [|d j' ds' ks' H1 H2 IH]; [destruct Hj|]. destruct Hj as [->|Hj]; [destruct H1; lia|exact (IH Hj)]. }
    assert (Inc' : incl (seq 0 (length (t_shape t))) ks) by (apply NoDup_length_incl; [exact N|rewrite seq_length; lia|exact Inc]).
    apply Inc', in_seq. lia. }
  f_equal. apply nth_ext with 0%nat 0%nat; [rewrite map_length, seq_length; congruence|]. intros j Hj. rewrite map_length, seq_length in Hj.
  rewrite (nth_indep _ 0%nat (nth (place 0%nat ks) (map (fun k => nth k i 0%nat) ks) 0%nat)) by (rewrite map_length, seq_length; exact Hj).
  rewrite (map_nth (fun k => nth (place k ks) (map (fun k0 => nth k0 i 0%nat) ks) 0%nat)), seq_nth by exact Hj. cbn [Nat.add].
  apply nth_error_nth. rewrite nth_error_map, (place_nth j ks (Ik j Hj)). reflexivity.
Qed.

Lemma permute_ok t ds u : permute t ds = Ok u -> length ds = length (t_shape t) /\ exists ks, Forall2 (denotes (length (t_shape t))) ds ks /\ NoDup ks.
Proof.
  unfold permute. destruct (Nat.eqb (length ds) (length (t_shape t))) eqn:E; cbn [negb]; [|discriminate]. apply Nat.eqb_eq in E.
  destruct (wrap_dims (length (t_shape t)) ds []) as [ks|] eqn:W; [|discriminate]. intros _. split; [exact E|]. exists ks.
  apply wrap_dims_spec in W. tauto.
Qed.

Lemma backwards n : map (fun i => Z.of_nat n - Z.of_nat i - 1)%Z (seq 0 n) = map Z.of_nat (rev (seq 0 n)).
Proof.
  apply nth_ext with 0%Z 0%Z; rewrite !map_length, ?rev_length; [reflexivity|]. rewrite seq_length. intros i Hi.
  rewrite (nth_indep _ 0%Z (Z.of_nat n - Z.of_nat 0 - 1)%Z) by (rewrite map_length, seq_length; exact Hi).
  rewrite (map_nth (fun i => (Z.of_nat n - Z.of_nat i - 1)%Z)).
  rewrite (map_nth Z.of_nat (rev (seq 0 n)) 0%nat i : nth i (map Z.of_nat (rev (seq 0 n))) 0%Z = _), rev_nth by (rewrite seq_length; exact Hi). rewrite seq_length, !seq_nth by lia. lia.
Qed.

Lemma denotes_nat n l : (forall k, In k l -> (k < n)%nat) -> Forall2 (denotes n) (map Z.of_nat l) l.
Proof.
  induction l as [|k l IH]; intros H; [constructor|]. cbn [map]. constructor; [split; [apply H; left; reflexivity|left; reflexivity]|].
  apply IH. intros j Hj. apply H. right. exact Hj.
Qed.

Lemma map_nth_seq (l : list nat) : map (fun k => nth k l 0%nat) (seq 0 (length l)) = l.
Proof.
  apply nth_ext with 0%nat 0%nat; rewrite map_length, seq_length; [reflexivity|]. intros i Hi.
  rewrite (nth_indep _ 0%nat (nth 0 l 0%nat)) by (rewrite map_length, seq_length; exact Hi).
  rewrite (map_nth (fun k => nth k l 0%nat)), seq_nth by exact Hi. reflexivity.
Qed.

Lemma transposed t : exists u, torch_transpose t = Ok u /\ t_dtype u = t_dtype t /\ t_shape u = rev (t_shape t)
  /\ forall i, inside i (t_shape t) -> t_at u (rev i) = t_at t i.
Proof.
  unfold torch_transpose. rewrite backwards.
  destruct (permute_entries t (map Z.of_nat (rev (seq 0 (length (t_shape t))))) (rev (seq 0 (length (t_shape t))))) as (u & E & D & S & A).
  - apply denotes_nat. intros k Hk. apply in_rev in Hk. apply in_seq in Hk. lia.
  - apply NoDup_rev, seq_NoDup.
  - rewrite map_length, rev_length, seq_length. reflexivity.
  - exists u. split; [exact E|]. split; [exact D|]. split.
    + rewrite S, map_rev, map_nth_seq. reflexivity.
    + intros i I. rewrite <- (A i I). rewrite map_rev. do 2 f_equal.
      assert (Li : length i = length (t_shape t)) by (clear -I; induction I; cbn; congruence). rewrite <- Li, map_nth_seq. reflexivity.
Qed.

Lemma inside_rev i s : inside i s -> inside (rev i) (rev s).
Proof.
  intros H. induction H as [|x y i s H1 H2 IH]; [constructor|]. cbn [rev]. apply Forall2_app; [exact IH|constructor; [exact H1|constructor]].
Qed.

Lemma transposed_twice t u : torch_transpose t = Ok u -> exists t', torch_transpose u = Ok t' /\ same t' t.
Proof.
  intros E. destruct (transposed t) as (u' & E' & D & S & A). rewrite E in E'. injection E' as <-.
  destruct (transposed u) as (t' & E2 & D2 & S2 & A2). exists t'. split; [exact E2|]. split; [congruence|]. split.
  - rewrite S2, S, rev_involutive. reflexivity.
  - intros i I. rewrite S2, S, rev_involutive in I. rewrite <- (A i I). rewrite <- (A2 (rev i)) by (rewrite S; apply inside_rev, I).
    rewrite rev_involutive. reflexivity.
Qed.

Lemma backend_default t : (t_shape t = [] -> backend_transpose t None = Err TypeError)
  /\ (t_shape t <> [] -> backend_transpose t None = torch_transpose t).
Proof.
  unfold backend_transpose, torch_transpose. split; intros H.
  - rewrite H. reflexivity.
  - rewrite backwards. destruct (map Z.of_nat (rev (seq 0 (length (t_shape t))))) as [|d r] eqn:E; [|reflexivity]. exfalso.
    apply (f_equal (@length Z)) in E. rewrite map_length, rev_length, seq_length in E. destruct (t_shape t); [contradiction|discriminate].
Qed.

Lemma backend_axes t ds : t_shape t <> [] ->
  ((exists u, backend_transpose t (Some ds) = Ok u) <-> length ds = length (t_shape t) /\ exists ks, Forall2 (denotes (length (t_shape t))) ds ks /\ NoDup ks)
  /\ forall u ks, backend_transpose t (Some ds) = Ok u -> Forall2 (denotes (length (t_shape t))) ds ks ->
       t_dtype u = t_dtype t /\ t_shape u = map (fun k => nth k (t_shape t) 0%nat) ks
       /\ forall i, inside i (t_shape t) -> t_at u (map (fun k => nth k i 0%nat) ks) = t_at t i.
Proof.
  intros Ne. unfold backend_transpose. destruct ds as [|d ds].
  - split; [|intros u ks; discriminate]. split; [intros [u H]; discriminate|]. intros [H _]. exfalso. destruct (t_shape t); [contradiction|discriminate].
  - split.
    + split; [intros [u H]; exact (permute_ok _ _ _ H)|]. intros (L & ks & F & N). destruct (permute_entries t (d :: ds) ks F N L) as (u & E & _). exists u. exact E.
    + intros u ks E F. destruct (permute_ok _ _ _ E) as (L & ks' & F' & N).
      assert (ks' = ks).
      { clear -F F'. revert ks' F'. generalize dependent ks. induction (d :: ds) as [|x l IH]; intros ks F ks' F'; inversion F; inversion F'; subst; [reflexivity|].
        f_equal; [|apply IH; assumption]. unfold denotes in *. lia. }
      subst ks'. destruct (permute_entries t (d :: ds) ks F N L) as (u' & E' & R). rewrite E in E'. injection E' as <-. exact R.
Qed.

(** ** Products *)
Lemma dot_factors a b : exists a' b', torch_dot a b = (if Nat.eqb (length (t_shape a)) 2 && Nat.eqb (length (t_shape b)) 1 then mv a' b'
    else if Nat.ltb 1 (length (t_shape a)) then mm a' b' else dot1 a' b')
  /\ t_shape a' = t_shape a /\ t_at a' = t_at a /\ t_shape b' = t_shape b /\ t_at b' = t_at b
  /\ (forall d, product_type (t_dtype a) (t_dtype b) d -> t_dtype a' = d /\ t_dtype b' = d)
  /\ (t_dtype a' = t_dtype b' -> product_type (t_dtype a) (t_dtype b) (t_dtype a')).
Proof.
  destruct a as [da sa fa], b as [db sb fb]. unfold torch_dot, product_type. cbn [t_dtype t_shape t_at].
  destruct (dtype_eqb da db) eqn:E; [apply dtype_eqb_spec in E; subst db|].
  - exists (mkTensor da sa fa), (mkTensor da sb fb). split; [reflexivity|]. cbn. repeat (split; [reflexivity|]). split.
    + intros d [[_ ->]|[(p & -> & ->)|(N & p & -> & _)]]; auto. destruct (N p eq_refl).
    + intros _. left. auto.
  - assert (NE : da <> db) by (intros ->; rewrite dtype_eqb_refl in E; discriminate).
    destruct (is_complex da) eqn:Ca; [|destruct (is_complex db) eqn:Cb].
    + exists (mkTensor da sa fa), (mkTensor da sb fb). split; [reflexivity|]. cbn. repeat (split; [reflexivity|]). split.
      * intros d [[H _]|[(p & -> & ->)|(N & p & -> & _)]]; [contradiction|auto|]. destruct da; try discriminate. destruct (N p0 eq_refl).
      * intros _. right; left. destruct da; try discriminate. eauto.
    + exists (mkTensor db sa fa), (mkTensor db sb fb). split; [reflexivity|]. cbn. repeat (split; [reflexivity|]). split.
      * intros d [[H _]|[(p & -> & ->)|(N & p & -> & ->)]]; [contradiction|discriminate|auto].
      * intros _. right; right. split; [intros p ->; discriminate|]. destruct db; try discriminate. eauto.
    + exists (mkTensor da sa fa), (mkTensor db sb fb). split; [reflexivity|]. cbn. repeat (split; [reflexivity|]). split.
      * intros d [[H _]|[(p & -> & ->)|(N & p & -> & ->)]]; [contradiction|discriminate..].
      * intros H. contradiction.
Qed.

Lemma dot_type a b c : torch_dot a b = Ok c -> product_type (t_dtype a) (t_dtype b) (t_dtype c).
Proof.
  destruct (dot_factors a b) as (a' & b' & -> & _ & _ & _ & _ & _ & T). intros H.
  assert (D : t_dtype a' = t_dtype b' /\ t_dtype c = t_dtype a').
  { destruct (Nat.eqb (length (t_shape a)) 2 && Nat.eqb (length (t_shape b)) 1); [|destruct (Nat.ltb 1 (length (t_shape a)))];
    [unfold mv in H|unfold mm in H|unfold dot1 in H]; destruct (dtype_eqb (t_dtype a') (t_dtype b')) eqn:E; cbn [negb] in H; try discriminate;
    apply dtype_eqb_spec in E; (split; [exact E|]);
    destruct (t_shape a') as [|n [|m [|]]]; try discriminate; destruct (t_shape b') as [|k [|p [|]]]; try discriminate;
    match type of H with (if ?x then _ else _) = _ => destruct x; [|discriminate] end; injection H as <-; reflexivity. }
  destruct D as [D1 ->]. exact (T D1).
Qed.

Lemma matrix_matrix a b d da db n m p A B : matrix a da n m A -> matrix b db m p B -> product_type da db d ->
  exists c, torch_dot a b = Ok c /\ matrix c d n p (fun i j => total m (fun k => Cmul (A i k) (B k j))).
Proof.
  intros (Da & Sa & Ea) (Db & Sb & Eb) P. destruct (dot_factors a b) as (a' & b' & -> & Sa' & Ea' & Sb' & Eb' & T & _).
  rewrite Da, Db in T. destruct (T d P) as [Ta Tb]. rewrite Sa, Sb. cbn [length Nat.eqb andb Nat.ltb Nat.leb]. unfold mm. rewrite Ta, Tb, dtype_eqb_refl. cbn [negb].
  rewrite Sa', Sb', Sa, Sb, Nat.eqb_refl. eexists. split; [reflexivity|]. split; [reflexivity|]. split; [reflexivity|].
  intros i j Hi Hj. cbn [t_at nth]. rewrite sum_total. apply total_ext. intros k Hk. rewrite Ea', Eb', Ea, Eb by assumption. reflexivity.
Qed.

Lemma matrix_vector a b d da db n m A v : matrix a da n m A -> vector b db m v -> product_type da db d ->
  exists c, torch_dot a b = Ok c /\ vector c d n (fun i => total m (fun k => Cmul (A i k) (v k))).
Proof.
  intros (Da & Sa & Ea) (Db & Sb & Eb) P. destruct (dot_factors a b) as (a' & b' & -> & Sa' & Ea' & Sb' & Eb' & T & _).
  rewrite Da, Db in T. destruct (T d P) as [Ta Tb]. rewrite Sa, Sb. cbn [length Nat.eqb andb]. unfold mv. rewrite Ta, Tb, dtype_eqb_refl. cbn [negb].
  rewrite Sa', Sb', Sa, Sb, Nat.eqb_refl. eexists. split; [reflexivity|]. split; [reflexivity|]. split; [reflexivity|].
  intros i Hi. cbn [t_at nth]. rewrite sum_total. apply total_ext. intros k Hk. rewrite Ea', Eb', Ea, Eb by assumption. reflexivity.
Qed.

Lemma vector_vector a b d da db n v w : vector a da n v -> vector b db n w -> product_type da db d ->
  exists c, torch_dot a b = Ok c /\ scalar c d (total n (fun k => Cmul (v k) (w k))).
Proof.
  intros (Da & Sa & Ea) (Db & Sb & Eb) P. destruct (dot_factors a b) as (a' & b' & -> & Sa' & Ea' & Sb' & Eb' & T & _).
  rewrite Da, Db in T. destruct (T d P) as [Ta Tb]. rewrite Sa, Sb. cbn [length Nat.eqb andb Nat.ltb Nat.leb]. unfold dot1. rewrite Ta, Tb, dtype_eqb_refl. cbn [negb].
  rewrite Sa', Sb', Sa, Sb, Nat.eqb_refl. eexists. split; [reflexivity|]. split; [reflexivity|]. split; [reflexivity|].
  cbn [t_at nth]. rewrite sum_total. apply total_ext. intros k Hk. rewrite Ea', Eb', Ea, Eb by assumption. reflexivity.
Qed.

Lemma dot_ok a b : (exists c, torch_dot a b = Ok c) <-> fits (t_shape a) (t_shape b) /\ exists d, product_type (t_dtype a) (t_dtype b) d.
Proof.
  split.
  - intros [c E]. split; [|exists (t_dtype c); apply dot_type, E].
    destruct (dot_factors a b) as (a' & b' & Eq & Sa & _ & Sb & _ & _ & _). rewrite Eq in E. unfold fits.
    destruct (Nat.eqb (length (t_shape a)) 2 && Nat.eqb (length (t_shape b)) 1) eqn:B1; [|destruct (Nat.ltb 1 (length (t_shape a))) eqn:B2];
    [unfold mv in E|unfold mm in E|unfold dot1 in E]; rewrite Sa, Sb in E; destruct (negb _); try discriminate;
    destruct (t_shape a) as [|n [|m [|]]]; try discriminate; destruct (t_shape b) as [|k [|p [|]]]; try discriminate;
    match type of E with (if ?x then _ else _) = _ => destruct x eqn:Q; [|discriminate] end; apply Nat.eqb_eq in Q; subst.
    + right; left. eauto.
    + left. eauto.
    + right; right. eauto.
  - intros [[(n & m & p & Sa & Sb)|[(n & m & Sa & Sb)|(n & Sa & Sb)]] [d P]].
    + destruct (matrix_matrix a b d (t_dtype a) (t_dtype b) n m p (fun i j => t_at a [i; j]) (fun i j => t_at b [i; j])) as (c & E & _); [split; auto..|exact P|exists c; exact E].
    + destruct (matrix_vector a b d (t_dtype a) (t_dtype b) n m (fun i j => t_at a [i; j]) (fun i => t_at b [i])) as (c & E & _); [split; auto..|exact P|exists c; exact E].
    + destruct (vector_vector a b d (t_dtype a) (t_dtype b) n (fun i => t_at a [i]) (fun i => t_at b [i])) as (c & E & _); [split; auto..|exact P|exists c; exact E].
Qed.

Lemma dot_error a b e : torch_dot a b = Err e -> e = RuntimeError.
Proof.
  destruct (dot_factors a b) as (a' & b' & -> & _). intros H.
  destruct (Nat.eqb (length (t_shape a)) 2 && Nat.eqb (length (t_shape b)) 1); [|destruct (Nat.ltb 1 (length (t_shape a)))];
  [unfold mv in H|unfold mm in H|unfold dot1 in H]; destruct (negb _); try congruence;
  destruct (t_shape a') as [|n [|m [|]]]; try congruence; destruct (t_shape b') as [|k [|p [|]]]; try congruence;
  match type of H with (if ?x then _ else _) = _ => destruct x; congruence end.
Qed.

Lemma created dd n shape : (t_dtype (torch_zeros dd shape PyComplex) = Complex dd /\ t_shape (torch_zeros dd shape PyComplex) = shape /\ forall i, t_at (torch_zeros dd shape PyComplex) i = C0)
  /\ matrix (torch_eye dd n PyComplex) (Complex dd) n n (fun i j => if Nat.eqb i j then C1 else C0)
  /\ matrix (torch_eye dd n NoType) (Float dd) n n (fun i j => if Nat.eqb i j then C1 else C0)
  /\ forall d, t_dtype (torch_zeros dd shape (Given d)) = d /\ (forall i, t_at (torch_zeros dd shape (Given d)) i = C0)
       /\ matrix (torch_eye dd n (Given d)) d n n (fun i j => if Nat.eqb i j then C1 else C0).
Proof.
  split; [|split; [|split]].
  - split; [reflexivity|]. split; [reflexivity|]. intros i. cbn. unfold Cadd, Cmul, C0, Ci. cbn. f_equal; ring.
  - split; [reflexivity|]. split; [reflexivity|]. intros i j _ _. cbn. destruct (Nat.eqb i j); unfold Cadd, Cmul, C0, C1, Ci; cbn; f_equal; ring.
  - split; [reflexivity|]. split; [reflexivity|]. intros i j _ _. reflexivity.
  - intros d. repeat (split; [reflexivity|]). intros i j _ _. reflexivity.
Qed.

Lemma Cmul_1_l z : Cmul C1 z = z.
Proof. destruct z. unfold Cmul, C1. cbn. f_equal; ring. Qed.
Lemma Cmul_0_l z : Cmul C0 z = C0.
Proof. destruct z. unfold Cmul, C0. cbn. f_equal; ring. Qed.
Lemma Cmul_c a b : Cmul a b = Cmul b a.
Proof. destruct a, b. unfold Cmul. cbn. f_equal; ring. Qed.
Lemma Cmul_a a b c : Cmul (Cmul a b) c = Cmul a (Cmul b c).
Proof. destruct a, b, c. unfold Cmul. cbn. f_equal; ring. Qed.

Lemma eye_neutral dd arg p n m a A : matrix a (Complex p) n m A -> (arg = NoType \/ arg = PyComplex /\ p = dd) ->
  (exists c, torch_dot (torch_eye dd n arg) a = Ok c /\ matrix c (Complex p) n m A)
  /\ exists c, torch_dot a (torch_eye dd m arg) = Ok c /\ matrix c (Complex p) n m A.
Proof.
  intros Ma H. assert (X : exists d, (forall k, matrix (torch_eye dd k arg) d k k (fun i j => if Nat.eqb i j then C1 else C0))
    /\ product_type d (Complex p) (Complex p) /\ product_type (Complex p) d (Complex p)).
  { destruct H as [->|[-> ->]].
    - exists (Float dd). split; [intros k; apply (created dd k [])|]. split; [right; right; split; [discriminate|eauto]|right; left; eauto].
    - exists (Complex dd). split; [intros k; apply (created dd k [])|]. split; left; auto. }
  destruct X as (d & Me & P1 & P2). split.
  - destruct (matrix_matrix _ _ _ _ _ _ _ _ _ _ (Me n) Ma P1) as (c & E & D & S & V). exists c. split; [exact E|]. split; [exact D|]. split; [exact S|].
    intros i j Hi Hj. rewrite V by assumption. rewrite (total_single n _ i Hi).
    + rewrite Nat.eqb_refl. apply Cmul_1_l.
    + intros k Hk Nk. apply Nat.neq_sym, Nat.eqb_neq in Nk. rewrite Nk. apply Cmul_0_l.
  - destruct (matrix_matrix _ _ _ _ _ _ _ _ _ _ Ma (Me m) P2) as (c & E & D & S & V). exists c. split; [exact E|]. split; [exact D|]. split; [exact S|].
    intros i j Hi Hj. rewrite V by assumption. rewrite (total_single m _ j Hj).
    + rewrite Nat.eqb_refl, Cmul_c. apply Cmul_1_l.
    + intros k Hk Nk. apply Nat.eqb_neq in Nk. rewrite Nk, Cmul_c. apply Cmul_0_l.
Qed.

Lemma associative a b c p n m k l A B D : matrix a (Complex p) n m A -> matrix b (Complex p) m k B -> matrix c (Complex p) k l D ->
  exists ab bc x y, torch_dot a b = Ok ab /\ torch_dot b c = Ok bc /\ torch_dot ab c = Ok x /\ torch_dot a bc = Ok y /\ same x y.
Proof.
  intros Ma Mb Mc. assert (P : product_type (Complex p) (Complex p) (Complex p)) by (left; auto).
  destruct (matrix_matrix _ _ _ _ _ _ _ _ _ _ Ma Mb P) as (ab & E1 & Mab). destruct (matrix_matrix _ _ _ _ _ _ _ _ _ _ Mb Mc P) as (bc & E2 & Mbc).
  destruct (matrix_matrix _ _ _ _ _ _ _ _ _ _ Mab Mc P) as (x & E3 & Dx & Sx & Vx). destruct (matrix_matrix _ _ _ _ _ _ _ _ _ _ Ma Mbc P) as (y & E4 & Dy & Sy & Vy).
  exists ab, bc, x, y. repeat (split; [assumption|]). split; [congruence|]. split; [congruence|]. rewrite Sx. intros i I.
  inversion I as [|i1 ? r1 ? H1 I1]; subst. inversion I1 as [|i2 ? r2 ? H2 I2]; subst. inversion I2; subst. rewrite Vx, Vy by assumption.
  transitivity (total k (fun j => total m (fun j' => Cmul (Cmul (A i1 j') (B j' j)) (D j i2)))).
  - apply total_ext. intros j Hj. rewrite Cmul_c, <- total_scale. apply total_ext. intros j' Hj'. apply Cmul_c.
  - rewrite total_swap. apply total_ext. intros j Hj. rewrite <- total_scale. apply total_ext. intros j' Hj'. apply Cmul_a.
Qed.

Lemma transposed_matrix a d n m A : matrix a d n m A -> exists u, torch_transpose a = Ok u /\ matrix u d m n (fun i j => A j i).
Proof.
  intros (Da & Sa & Ea). destruct (transposed a) as (u & E & D & S & V). exists u. split; [exact E|]. split; [congruence|]. rewrite Sa in *. split; [exact S|].
  intros i j Hi Hj. change [i; j] with (rev [j; i]). rewrite V by (repeat constructor; assumption). apply Ea; assumption.
Qed.

Lemma transposed_product a b p n m k A B : matrix a (Complex p) n m A -> matrix b (Complex p) m k B ->
  exists ab at_ bt x y, torch_dot a b = Ok ab /\ torch_transpose ab = Ok x /\ torch_transpose a = Ok at_ /\ torch_transpose b = Ok bt /\ torch_dot bt at_ = Ok y /\ same x y.
Proof.
  intros Ma Mb. assert (P : product_type (Complex p) (Complex p) (Complex p)) by (left; auto).
  destruct (matrix_matrix _ _ _ _ _ _ _ _ _ _ Ma Mb P) as (ab & E1 & Mab). destruct (transposed_matrix _ _ _ _ _ Mab) as (x & E2 & Dx & Sx & Vx).
  destruct (transposed_matrix _ _ _ _ _ Ma) as (at_ & E3 & Mat). destruct (transposed_matrix _ _ _ _ _ Mb) as (bt & E4 & Mbt).
  destruct (matrix_matrix _ _ _ _ _ _ _ _ _ _ Mbt Mat P) as (y & E5 & Dy & Sy & Vy). exists ab, at_, bt, x, y. repeat (split; [assumption|]).
  split; [congruence|]. split; [congruence|]. rewrite Sx. intros i I.
  inversion I as [|i1 ? r1 ? H1 I1]; subst. inversion I1 as [|i2 ? r2 ? H2 I2]; subst. inversion I2; subst. rewrite Vx, Vy by assumption.
  apply total_ext. intros j Hj. apply Cmul_c.
Qed.
