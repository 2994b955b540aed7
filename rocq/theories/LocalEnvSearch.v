(** An exact periodic search for the unit cube, for the examples about local environments:
    it shows that the assumption about the search can be met. *)
From Coq Require Import QArith Qround Lqa.
From Verif Require Import Py LatticeModel LocalEnvModel LocalEnvSpec.
Local Open Scope nat_scope.

Definition cube : cell := ((1, 0, 0), (0, 1, 0), (0, 0, 1))%Q.

(** The whole numbers within [r] of [d], and perhaps one more at each end. *)
Definition near (d r : Q) : list Z :=
  map (fun k => (Qfloor (d - r) + Z.of_nat k)%Z) (seq 0 (Z.to_nat (Qceiling (d + r) - Qfloor (d - r) + 1))).
Definition box (f : coords) (c : point) (r : Q) : list image :=
  let '(x, y, z) := f in let '(x', y', z') := c in
  list_prod (list_prod (near (x' - x) r) (near (y' - y) r)) (near (z' - z) r).
Definition cubic_images (f : coords) (c : point) (r : Q) : list image :=
  List.filter (fun t => Qle_bool 0 r && Qle_bool (norm2 (vsub (to_cart cube (shift f t)) c)) (r * r)) (box f c r).
Definition cubic (_ : cell) (fs : list coords) (c : point) (r : Q) : list (nat * image) :=
  concat (imap (fun i f => map (pair i) (cubic_images f c r)) fs).

Lemma near_in d r t : (d - r <= inject_Z t)%Q -> (inject_Z t <= d + r)%Q -> In t (near d r).
Proof.
  intros H1 H2. unfold near. apply in_map_iff.
  assert (Qfloor (d - r) <= t)%Z by (rewrite <- (Qfloor_Z t); by apply Qfloor_resp_le).
  assert (t <= Qceiling (d + r))%Z by (rewrite <- (Qceiling_Z t); by apply Qceiling_resp_le).
  exists (Z.to_nat (t - Qfloor (d - r))). split; [lia|]. apply in_seq. lia.
Qed.
Lemma near_nodup d r : List.NoDup (near d r).
Proof.
  unfold near. apply FinFun.Injective_map_NoDup; [|apply seq_NoDup]. intros i j H. lia.
Qed.
Lemma within (X Y Z r : Q) : (0 <= r)%Q -> (X * X + Y * Y + Z * Z <= r * r)%Q -> (- r <= X)%Q /\ (X <= r)%Q.
Proof.
  intros Hr H. assert (0 <= Y * Y)%Q by nra. assert (0 <= Z * Z)%Q by nra. split; nra.
Qed.
Lemma box_in f t c r : reaches cube f t c r -> In t (box f c r).
Proof.
  destruct f as [[x y] z], t as [[a b] c'], c as [[x' y'] z']. unfold reaches, box. simpl. intros [Hr H].
  assert (H0 : ((x + inject_Z a - x') * (x + inject_Z a - x') + (y + inject_Z b - y') * (y + inject_Z b - y') +
                (z + inject_Z c' - z') * (z + inject_Z c' - z') <= r * r)%Q).
  { eapply Qle_trans; [|exact H]. apply Qle_lteq. right. ring. }
  destruct (within _ _ _ _ Hr H0) as [X1 X2].
  assert (H' : ((y + inject_Z b - y') * (y + inject_Z b - y') + (x + inject_Z a - x') * (x + inject_Z a - x') +
                (z + inject_Z c' - z') * (z + inject_Z c' - z') <= r * r)%Q) by lra.
  assert (H'' : ((z + inject_Z c' - z') * (z + inject_Z c' - z') + (x + inject_Z a - x') * (x + inject_Z a - x') +
                (y + inject_Z b - y') * (y + inject_Z b - y') <= r * r)%Q) by lra.
  destruct (within _ _ _ _ Hr H') as [Y1 Y2], (within _ _ _ _ Hr H'') as [Z1 Z2].
  apply in_prod; [apply in_prod|]; apply near_in; lra.
Qed.
Lemma box_nodup f c r : List.NoDup (box f c r).
Proof.
  destruct f as [[x y] z], c as [[x' y'] z']. unfold box.
  assert (forall {A B} (l : list A) (l' : list B), List.NoDup l -> List.NoDup l' -> List.NoDup (list_prod l l')) as G.
  { intros A B l l' Hl Hl'. induction Hl as [|a l Ha Hl IH]; [constructor|]. simpl. apply NoDup_ListNoDup, NoDup_app. split_and!.
    - apply NoDup_ListNoDup, FinFun.Injective_map_NoDup; [|done]. by intros ?? [= ->].
    - intros p Hp Hp'. apply elem_of_list_In, in_map_iff in Hp as (b & <- & _). apply elem_of_list_In, in_prod_iff in Hp' as [? _]. done.
    - by apply NoDup_ListNoDup. }
  apply G; [apply G|]; apply near_nodup.
Qed.
Lemma images_in f t c r : In t (cubic_images f c r) <-> reaches cube f t c r.
Proof.
  unfold cubic_images. rewrite filter_In, andb_true_iff, !Qle_bool_iff. split; [intros [_ H]; exact H|].
  intros H. split; [by apply box_in|exact H].
Qed.

Lemma cubic_exact : search_exact cubic cube.
Proof.
  intros fs c r. unfold cubic.
  assert (G : forall g : nat -> nat, (forall i j, g i = g j -> i = j) ->
    NoDup (concat (imap (fun i f => map (pair (g i)) (cubic_images f c r)) fs)) /\
    forall k t, (k, t) ∈ concat (imap (fun i f => map (pair (g i)) (cubic_images f c r)) fs) <->
      exists i f, k = g i /\ fs !! i = Some f /\ reaches cube f t c r).
  { induction fs as [|f fs IH]; intros g Hg.
    - simpl. split; [constructor|]. intros k t. split; [by intros ?%elem_of_nil|]. by intros (i & f & _ & ? & _).
    - rewrite imap_cons. simpl. destruct (IH (g ∘ S)) as [IH1 IH2]. { intros i j H. apply Hg in H. lia. }
      split.
      + apply NoDup_app. split_and!.
        * apply NoDup_ListNoDup, FinFun.Injective_map_NoDup; [by intros ?? [= ->]|]. apply List.NoDup_filter, box_nodup.
        * intros [k t] H1 H2. apply elem_of_list_In, in_map_iff in H1 as (t' & [= <- <-] & _).
          apply IH2 in H2 as (i & f' & E & _). apply Hg in E. lia.
        * exact IH1.
      + intros k t. rewrite elem_of_app. etransitivity; [apply or_iff_compat_l, IH2|]. split.
        * intros [H|(i & f' & -> & Hi & Hr)].
          -- apply elem_of_list_In, in_map_iff in H as (t' & [= <- <-] & Hin). apply images_in in Hin. by exists 0, f.
          -- by exists (S i), f'.
        * intros ([|i] & f' & -> & Hi & Hr).
          -- left. simpl in Hi. injection Hi as <-. apply elem_of_list_In, in_map_iff. exists t. split; [done|]. by apply images_in.
          -- right. by exists i, f'. }
  destruct (G (fun i => i) (fun i j H => H)) as [G1 G2]. split; [exact G1|]. intros i t. rewrite G2. split.
  - intros (i' & f & -> & H). eauto.
  - intros (f & H). eauto.
Qed.
