(** * C112: calls of convert_corr. *)
From Coq Require Import String Lra Lia.
From Verif Require Import Prelude Spec PreludeFacts M_Index M_Params M_ConvertCall P_Index P_Params P_Energy P_Corr.
Import ListNotations.
Local Open Scope R_scope.

(** What convert_corr returns and refuses, by the arguments it is given: two vectors, or one
    vector with concat; IndexError if correlations are missing, and an error for anything but
    '01' and '11'.  Surplus correlations are accepted and come back as zeros. *)
Theorem C112_call : forall (si sisj : list R) (b : basis) (concat : bool), let n := List.length si in
  (b = ToOther -> convert_corr_call si sisj (Some b) concat [] = Err GenericException) /\
  (b <> ToOther -> (List.length sisj < n * (n - 1) / 2)%nat -> convert_corr_call si sisj (Some b) concat [] = Err IndexError) /\
  (b <> ToOther -> (n * (n - 1) / 2 <= List.length sisj)%nat ->
     exists newsi newsisj, convert_corr_call si sisj (Some b) false [] = Ok (inl (newsi, newsisj)) /\
       convert_corr_call si sisj (Some b) true [] = Ok (inr (newsi ++ newsisj)%list) /\
       List.length newsi = n /\ List.length newsisj = List.length sisj /\
       convert_corr si (firstn (n * (n - 1) / 2) sisj) b = Ok (newsi, firstn (n * (n - 1) / 2) newsisj) /\
       forall k, (n * (n - 1) / 2 <= k)%nat -> nthR newsisj k = 0).
Proof.
  intros si sisj b concat n. split; [intros ->; reflexivity|]. split.
  - intros Hb Hl. unfold convert_corr_call, convert_corr. fold n. apply Nat.ltb_lt in Hl. rewrite Hl. destruct b; [reflexivity|reflexivity|congruence].
  - intros Hb Hl. set (q := (n * (n - 1) / 2)%nat) in *.
    assert (Lq : List.length (loop_ij n) = q) by (rewrite loop_ij_pairs; apply pairs_seq_length).
    assert (G : forall f : R -> R -> R -> R, let new := fst (fold_left (fun st (p : nat * nat) => let '(new, k) := st in
             (upd new k (f (nthR sisj k) (nthR si (fst p)) (nthR si (snd p))), (k + 1)%nat))
           (loop_ij n) (repeat 0 (List.length sisj), 0%nat)) in
       List.length new = List.length sisj /\ (forall k, (q <= k)%nat -> nthR new k = 0) /\
       firstn q new = fst (fold_left (fun st (p : nat * nat) => let '(new, k) := st in
             (upd new k (f (nthR (firstn q sisj) k) (nthR si (fst p)) (nthR si (snd p))), (k + 1)%nat))
           (loop_ij n) (repeat 0 q, 0%nat))).
    { intros f. cbv zeta.
      pose proof (write_seq_ix (fun k (p : nat * nat) => f (nthR sisj k) (nthR si (fst p)) (nthR si (snd p))) (loop_ij n) []
         (repeat 0 (List.length sisj))) as W. cbn [app List.length] in W. rewrite W by (rewrite repeat_length; lia). clear W.
      pose proof (write_seq_ix (fun k (p : nat * nat) => f (nthR (firstn q sisj) k) (nthR si (fst p)) (nthR si (snd p))) (loop_ij n) []
         (repeat 0 q)) as W. cbn [app List.length] in W. rewrite W by (rewrite repeat_length; lia). clear W.
      cbn [fst]. rewrite Lq.
      assert (LA : forall v : nat -> nat * nat -> R, List.length (map (fun kp => let '(k, p) := kp in v k p) (combine (seq 0 q) (loop_ij n))) = q)
        by (intros v; rewrite map_length, combine_length, seq_length, Lq; lia).
      split; [rewrite app_length, LA, skipn_length, repeat_length; lia|]. split.
      - intros k Hk. unfold nthR. rewrite app_nth2 by (rewrite LA; exact Hk). rewrite LA.
        destruct (Nat.lt_ge_cases (k - q) (List.length (skipn q (repeat 0 (List.length sisj))))) as [H|H].
        + assert (Sub : forall (l : list R) y, In y (skipn q l) -> In y l)
            by (intros l y Hy; rewrite <- (firstn_skipn q l); apply in_or_app; now right).
          apply (repeat_spec (List.length sisj) 0). apply Sub. apply nth_In. exact H.
        + apply nth_overflow. exact H.
      - rewrite (skipn_all2 (repeat 0 q)) by (rewrite repeat_length; lia). rewrite app_nil_r.
        rewrite firstn_app, LA, Nat.sub_diag, firstn_O, app_nil_r, firstn_all2 by (rewrite LA; lia).
        apply map_ext_in. intros [k p] Hin. f_equal. apply in_combine_l, in_seq in Hin. unfold nthR.
        rewrite <- (firstn_skipn q sisj) at 1. rewrite app_nth1; [reflexivity|]. rewrite firstn_length. lia. }
    unfold convert_corr_call, convert_corr. fold n q. cbn [existsb].
    replace (Nat.ltb (List.length sisj) q) with false by (symmetry; apply Nat.ltb_ge; exact Hl).
    rewrite firstn_length, (Nat.min_l q) by exact Hl. rewrite Nat.ltb_irrefl.
    destruct b; [| |congruence]; cbn [bind].
    + destruct (G (fun q a b => 4 * q - 2 * a - 2 * b + 1)) as (G1 & G2 & G3). do 2 eexists. split; [reflexivity|]. split; [reflexivity|].
      split; [apply map_length|]. split; [exact G1|]. split; [|exact G2]. now rewrite G3.
    + destruct (G (fun q a b => (q + a + b + 1) / 4)) as (G1 & G2 & G3). do 2 eexists. split; [reflexivity|]. split; [reflexivity|].
      split; [apply map_length|]. split; [exact G1|]. split; [|exact G2]. now rewrite G3.
Qed.
Print Assumptions C112_call.

(** "The deprecated keyword convertTo is still accepted, with a warning" does not hold: no call
    that uses it returns, whether or not convert_to is given as well. *)
Theorem C112_deprecated_refuted : forall (si sisj : list R) (convert_to : option basis) (concat : bool) (kwargs : list string),
  In "convertTo"%string kwargs ->
  convert_corr_call si sisj convert_to concat kwargs = Err TypeError \/ convert_corr_call si sisj convert_to concat kwargs = Err NameError.
Proof.
  intros si sisj [b|] concat kwargs H; [|left; reflexivity]. right. unfold convert_corr_call.
  replace (existsb (String.eqb "convertTo") kwargs) with true; [reflexivity|]. symmetry. apply existsb_exists. exists "convertTo"%string. split; [exact H|reflexivity].
Qed.
Print Assumptions C112_deprecated_refuted.

(** Other unknown keywords are refused. *)
Theorem C112_unknown_keyword : forall (si sisj : list R) (convert_to : option basis) (concat : bool) (kwargs : list string),
  kwargs <> [] -> ~ In "convertTo"%string kwargs -> convert_corr_call si sisj convert_to concat kwargs = Err TypeError.
Proof.
  intros si sisj [b|] concat kwargs Hne H; [|reflexivity]. unfold convert_corr_call.
  replace (existsb (String.eqb "convertTo") kwargs) with false; [destruct kwargs; [congruence|reflexivity]|].
  symmetry. apply Bool.not_true_iff_false. intros E. apply existsb_exists in E. destruct E as (x & Hx & E). apply String.eqb_eq in E. now subst x.
Qed.
Print Assumptions C112_unknown_keyword.

(** Three spins with one surplus correlation. *)
Example C112_example : let si := [1 / 2; 0; 0] in let sisj := [0; 1; 0; 5] in
  (List.length si * (List.length si - 1) / 2 <= List.length sisj)%nat /\
  exists a c d, convert_corr_call si sisj (Some To01) true [] = Ok (inr [3 / 4; 1 / 2; 1 / 2; a; c; d; 0]) /\ c = 5 / 8 /\
  convert_corr_call si sisj (Some To01) true ["convertTo"%string] = Err NameError.
Proof.
  cbv zeta. split; [cbn; lia|]. exists (3 / 8), (5 / 8), (1 / 4). split; [|split; reflexivity].
  unfold convert_corr_call, convert_corr. cbn. unfold nthR. cbn. do 2 f_equal. repeat (f_equal; [lra|]). f_equal; lra.
Qed.
Print Assumptions C112_example.
