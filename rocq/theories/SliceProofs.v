(** The screening of messages leaves the caller's memory alone, whatever sort.Sort swaps, and finds what the value-level model finds. *)
Require Import ZArith Lia Bool List Permutation Sorted.
From Verif Require Import Words ModelRepr ModelFq ModelFr ModelOps ModelTower ModelCurve ModelPairing ModelHash ModelBls MsgScreen ModelSlice.
Import ListNotations.
Open Scope Z_scope.

(** memory is well formed: every pointer in every array points to a buffer *)
Definition wfM (M : Mem) : Prop := Forall (Forall (fun p => (p < length (bufs M))%nat)) (arrays M).
(** [M'] extends [M]: everything the caller could reach is unchanged *)
Definition extends (M M' : Mem) : Prop := (exists b, bufs M' = bufs M ++ b) /\ (exists a, arrays M' = arrays M ++ a).
Lemma wfM_array M o : wfM M -> Forall (fun p => (p < length (bufs M))%nat) (array M o).
Proof. intros H. unfold array. destruct (nth_in_or_default o (arrays M) []) as [I| ->]; [exact (proj1 (Forall_forall _ _) H _ I)|constructor]. Qed.
Lemma extends_contents M M' o : wfM M -> extends M M' -> (o < length (arrays M))%nat -> contents M' o = contents M o.
Proof.
  intros W [[b Eb] [a Ea]] L. unfold contents, array. rewrite Ea, Eb, app_nth1 by exact L. apply map_ext_in. intros p I. rewrite app_nth1; [reflexivity|].
  exact (proj1 (Forall_forall _ _) (wfM_array M o W) p I).
Qed.
Lemma copy_loop_spec ps : forall M, Forall (fun p => (p < length (bufs M))%nat) ps -> let (M', l) := copy_loop M ps in
  arrays M' = arrays M /\ (exists b, bufs M' = bufs M ++ b) /\ map (fun p => nth p (bufs M') []) l = map (fun p => nth p (bufs M) []) ps /\ Forall (fun p => (p < length (bufs M'))%nat) l.
Proof.
  induction ps as [|p ps IH]; intros M H; cbn [copy_loop].
  - split; [reflexivity|]. split; [exists []; symmetry; apply app_nil_r|]. split; [reflexivity|constructor].
  - inversion_clear H as [|? ? Hp Hps]. specialize (IH (mkMem (bufs M ++ [nth p (bufs M) []]) (arrays M))). cbn [bufs arrays] in IH.
    destruct (copy_loop _ ps) as [M' l]. destruct IH as (A & [b B] & C & D). { eapply Forall_impl; [|exact Hps]. cbn. intros x Hx. rewrite app_length. lia. }
    split; [exact A|]. split; [exists ([nth p (bufs M) []] ++ b); rewrite app_assoc; exact B|]. cbn [map]. rewrite C. split.
    + f_equal.
      * rewrite B, <- app_assoc, app_nth2, Nat.sub_diag by lia. reflexivity.
      * apply map_ext_in. intros x I. rewrite app_nth1; [reflexivity|]. exact (proj1 (Forall_forall _ _) Hps x I).
    + constructor; [rewrite B, !app_length; cbn [length]; lia|exact D].
Qed.
Lemma copy_msgs_spec M o : wfM M -> let (M1, o1) := copy_msgs M o in
  extends M M1 /\ o1 = length (arrays M) /\ length (arrays M1) = S o1 /\ contents M1 o1 = contents M o /\ wfM M1.
Proof.
  intros W. unfold copy_msgs. pose proof (copy_loop_spec (array M o) M (wfM_array M o W)) as H. destruct (copy_loop M (array M o)) as [M' l]. destruct H as (A & B & C & D).
  split; [split; [exact B|exists [l]; cbn [arrays]; rewrite A; reflexivity]|]. rewrite A. split; [reflexivity|]. cbn [arrays bufs]. split; [rewrite app_length; cbn [length]; lia|]. split.
  - unfold contents, array at 1. cbn [arrays bufs]. rewrite app_nth2, Nat.sub_diag by lia. exact C.
  - destruct B as [b B]. apply Forall_app. split; [|constructor; [exact D|constructor]]. eapply Forall_impl; [|exact W]. intros q Hq. eapply Forall_impl; [|exact Hq]. cbn. intros x Hx. rewrite B, app_length. lia.
Qed.
Lemma set_nth_length {A} n (x : A) l : length (set_nth n x l) = length l.
Proof. revert n. induction l as [|y l IH]; intros [|n]; cbn; auto. Qed.
Lemma set_nth_nth {A} n (x : A) l d k : nth k (set_nth n x l) d = if (Nat.eqb k n && (n <? length l)%nat)%bool then x else nth k l d.
Proof.
  revert n k. induction l as [|y l IH]; intros [|n] [|k]; cbn [set_nth nth length]; try reflexivity; try (rewrite andb_false_r; reflexivity).
  rewrite IH. change (Nat.eqb (S k) (S n)) with (Nat.eqb k n). replace (S n <? S (length l))%nat with (n <? length l)%nat by reflexivity. reflexivity.
Qed.
Lemma list_swap_perm l i j l' : list_swap l i j = Some l' -> Permutation l l'.
Proof.
  unfold list_swap. destruct (nth_error l i) as [x|] eqn:Ei; [|discriminate]. destruct (nth_error l j) as [y|] eqn:Ej; [|discriminate]. intros E. injection E as <-.
  assert (i < length l)%nat as Li by (apply nth_error_Some; congruence). assert (j < length l)%nat as Lj by (apply nth_error_Some; congruence).
  apply nth_error_nth with (d := 0%nat) in Ei, Ej. apply Permutation_nth with (d := 0%nat). cbv zeta. rewrite !set_nth_length. split; [reflexivity|].
  exists (fun k => if Nat.eqb k i then j else if Nat.eqb k j then i else k). split; [|split].
  - intros k Hk. destruct (Nat.eqb k i); [exact Lj|]. destruct (Nat.eqb k j); assumption.
  - intros a b Ha Hb. destruct (Nat.eqb_spec a i), (Nat.eqb_spec b i), (Nat.eqb_spec a j), (Nat.eqb_spec b j); lia.
  - intros k Hk. rewrite !set_nth_nth, set_nth_length, (proj2 (Nat.ltb_lt i _) Li), (proj2 (Nat.ltb_lt j _) Lj), !andb_true_r. destruct (Nat.eqb k i); [symmetry; exact Ej|]. destruct (Nat.eqb k j); [symmetry; exact Ei|reflexivity].
Qed.
Lemma set_nth_app {A} (l : list A) x y : set_nth (length l) y (l ++ [x]) = l ++ [y].
Proof. induction l as [|z l IH]; cbn; [reflexivity|]. f_equal. exact IH. Qed.
Lemma run_swaps_spec s : forall M a0 b M2, arrays M = a0 ++ [b] -> run_swaps M (length a0) s = Some M2 -> bufs M2 = bufs M /\ exists b', arrays M2 = a0 ++ [b'] /\ Permutation b b'.
Proof.
  induction s as [|[i j] s IH]; intros M a0 b M2 E; cbn [run_swaps].
  - intros H. injection H as <-. split; [reflexivity|]. exists b. split; [exact E|reflexivity].
  - unfold Swap, array. rewrite E, app_nth2, Nat.sub_diag by lia. cbn [nth]. destruct (list_swap b i j) as [b'|] eqn:S; [|discriminate]. cbn [option_map]. rewrite set_nth_app.
    intros H. destruct (IH (mkMem (bufs M) (a0 ++ [b'])) a0 b' M2 eq_refl H) as (B & b'' & A & P). split; [exact B|]. exists b''. split; [exact A|]. rewrite (list_swap_perm _ _ _ _ S). exact P.
Qed.
Definition sorted_bytes (l : list (list Z)) : Prop := StronglySorted (fun a b => bytes_Compare b a <> -1) l.
Lemma sorted_perm_eq l : forall l', StronglySorted ble l -> StronglySorted ble l' -> Permutation l l' -> l = l'.
Proof.
  induction l as [|x l IH]; intros l' S S' P; [apply Permutation_nil in P; congruence|]. destruct l' as [|y l']; [symmetry in P; apply Permutation_nil in P; discriminate|].
  inversion_clear S as [|? ? Sl Hx]. inversion_clear S' as [|? ? Sl' Hy]. rewrite Forall_forall in Hx, Hy.
  assert (x = y) as <-.
  { apply bcmp_anti.
    - destruct (Permutation_in x P (or_introl eq_refl)) as [->|I]; [rewrite bcmp_refl; discriminate|]. apply (Hy x I).
    - destruct (Permutation_in y (Permutation_sym P) (or_introl eq_refl)) as [->|I]; [rewrite bcmp_refl; discriminate|]. apply (Hx y I). }
  f_equal. apply IH; [assumption|assumption|]. eapply Permutation_cons_inv, P.
Qed.
Lemma sorted_unique l l' : sorted_bytes l -> Permutation l l' -> sortByteArrays l' = l.
Proof. intros S P. rewrite <- (sort_perm_eq l l' P). symmetry. apply (sorted_perm_eq l (sortByteArrays l)); [exact S|apply sort_sorted|symmetry; apply sort_perm]. Qed.
Theorem screen_frame M o s M2 b : wfM M -> (o < length (arrays M))%nat -> screen M o s = Some (M2, b) ->
  extends M M2 /\ contents M2 o = contents M o /\
  (sorted_bytes (contents M2 (length (arrays M))) -> b = has_duplicate [] (sortByteArrays (contents M o))).
Proof.
  intros W L. unfold screen. pose proof (copy_msgs_spec M o W) as H. destruct (copy_msgs M o) as [M1 o1]. destruct H as ([[bb EB] [a EA]] & -> & LA & C & W1).
  destruct (run_swaps M1 (length (arrays M)) s) as [M'|] eqn:R; [|discriminate]. intros E. injection E as <- <-.
  assert (exists c, a = [c]) as [c ->]. { rewrite EA, app_length in LA. destruct a as [|c [|? ?]]; cbn [length] in LA; try lia. exists c. reflexivity. }
  destruct (run_swaps_spec s M1 (arrays M) c M' EA R) as (B' & c' & A' & P).
  assert (extends M M') as X by (split; [exists bb; rewrite B'; exact EB|exists [c']; exact A']). split; [exact X|]. split; [exact (extends_contents M M' o W X L)|].
  intros S. rewrite (sorted_unique _ (contents M o) S); [reflexivity|]. rewrite <- C. unfold contents, array. rewrite A', EA, B', !app_nth2, !Nat.sub_diag by lia. cbn [nth]. apply Permutation_map. symmetry. exact P.
Qed.

(** VerifyAggregate on memory gives the verdict of the value-level model and leaves the caller's memory as it was. *)
Lemma some_pair {A B} (a c : A) (b d : B) : Some (a, b) = Some (c, d) -> a = c /\ b = d. Proof. intros E. injection E as E E'. split; assumption. Qed.
Section B.
  Context {F : Type} (sha : list Z -> list Z) (B : BOps F).
  Lemma contents_length M o : length (contents M o) = length (array M o). Proof. apply map_length. Qed.
  Theorem mem1 sig pubs M o s M2 v : wfM M -> (o < length (arrays M))%nat -> g1pubs_VerifyAggregate_mem sha B sig pubs M o s = Some (M2, v) ->
    extends M M2 /\ contents M2 o = contents M o /\
    ((length pubs = length (contents M o) -> sorted_bytes (contents M2 (length (arrays M)))) -> v = g1pubs_VerifyAggregate sha B sig pubs (contents M o)).
  Proof.
    intros W L. unfold g1pubs_VerifyAggregate_mem, g1pubs_VerifyAggregate. rewrite contents_length. destruct (Nat.eqb_spec (length pubs) (length (array M o))) as [Q|Q]; cbn [negb].
    - destruct (screen M o s) as [[M' b]|] eqn:E; [|discriminate]. destruct (screen_frame M o s M' b W L E) as (X & C & D).
      destruct b; intros H; destruct (some_pair _ _ _ _ H) as [<- <-]; (split; [exact X|]; split; [exact C|]; intros S; specialize (D (S Q)); rewrite <- D, ?C; reflexivity).
    - intros H. injection H as <- <-. split; [split; [exists []|exists []]; symmetry; apply app_nil_r|]. split; [reflexivity|]. reflexivity.
  Qed.
  Theorem mem2 sig pubs M o s M2 v : wfM M -> (o < length (arrays M))%nat -> g2pubs_VerifyAggregate_mem sha B sig pubs M o s = Some (M2, v) ->
    extends M M2 /\ contents M2 o = contents M o /\
    ((length pubs = length (contents M o) -> sorted_bytes (contents M2 (length (arrays M)))) -> v = g2pubs_VerifyAggregate sha B sig pubs (contents M o)).
  Proof.
    intros W L. unfold g2pubs_VerifyAggregate_mem, g2pubs_VerifyAggregate. rewrite contents_length. destruct (Nat.eqb_spec (length pubs) (length (array M o))) as [Q|Q]; cbn [negb].
    - destruct (screen M o s) as [[M' b]|] eqn:E; [|discriminate]. destruct (screen_frame M o s M' b W L E) as (X & C & D).
      destruct b; intros H; destruct (some_pair _ _ _ _ H) as [<- <-]; (split; [exact X|]; split; [exact C|]; intros S; specialize (D (S Q)); rewrite <- D, ?C; reflexivity).
    - intros H. injection H as <- <-. split; [split; [exists []|exists []]; symmetry; apply app_nil_r|]. split; [reflexivity|]. reflexivity.
  Qed.
End B.
(** three messages, the second array entry shared with another slice of the caller; the swaps sort the copy *)
Definition ex_mem : Mem := mkMem [[3; 1]; [2]; [2; 9]] [[0; 2; 1]; [2]]%nat.
Example ex_screen : wfM ex_mem /\ contents ex_mem 0 = [[3; 1]; [2; 9]; [2]] /\
  match screen ex_mem 0 [(0, 2)]%nat with Some (M2, b) => contents M2 0 = [[3; 1]; [2; 9]; [2]] /\ contents M2 1 = [[2; 9]] /\ contents M2 2 = [[2]; [2; 9]; [3; 1]] /\ b = false | None => False end.
Proof. split; [repeat constructor|]. vm_compute. repeat split. Qed.
Example ex_sorted : sorted_bytes [[2]; [2; 9]; [3; 1]].
Proof. repeat constructor; discriminate. Qed.
(** sorting the caller's array instead of a copy would reorder the caller's messages *)
Theorem in_place_refuted : exists M o s M2 b, wfM M /\ (o < length (arrays M))%nat /\ screen_in_place M o s = Some (M2, b) /\ contents M2 o <> contents M o.
Proof. exists ex_mem, 0%nat, [(0, 2)]%nat. eexists _, _. split; [repeat constructor|]. split; [cbn; lia|]. split; [reflexivity|]. vm_compute. discriminate. Qed.
