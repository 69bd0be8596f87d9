(** * Property C94, continued: interrupted equation files of the Ising model. *)
From Coq Require Import Ascii String.
From Verif Require Import Prelude Spec PreludeFacts M_Index M_Enum M_EqnText M_PottsText M_EqnCut P_Enum P_EqnText P_EqnText2 P_EqnText3 P_EqnText4 P_PyText P_EqnCut Props_Enum.
Import ListNotations.
Local Open Scope list_scope.
Local Open Scope R_scope.

(** C94 for the files of enumerate.py, in both precisions: the complete file returns the Boltzmann
    probabilities and the expectations, and what is on disk when writing is interrupted, after any
    number of characters, raises, returns None or returns the same.  ([other_top] and [other] say
    what Python does with the last, incomplete line and the loop it may belong to.) *)
Theorem C94_interrupted_ising : forall (license : option (list text)) (date : text) (hp : bool) (n : nat) (sym : bool) (cts : list (list (list nat))),
  (forall ls, license = Some ls -> forall l, In l ls -> ~ In nl l) -> ~ In nl date ->
  (0 < n)%nat -> (length cts <= 23)%nat ->
  (forall subix, In subix cts -> subix <> [] /\
     forall j k, (j < length (hd [] subix))%nat -> In k subix -> (nth j k 0 < n)%nat) ->
  let cs := flat_map (fun subix => map (fun j => map (fun k => nth j k 0%nat) subix) (seq 0 (length (hd [] subix)))) cts in
  cs <> [] ->
  let states := map (map IZR) (all_states (if sym then [-1; 1]%Z else [0; 1]%Z) n) in
  exists t, write_eqns_text license date hp n sym cts = Ok t /\
    (forall other_top other params, length params = length cs ->
       let prob := boltzmann (subset_energy cs params) states in
       call_eqn hp other_top other t "p" params = Ok (Some (map (fun s => Some (prob s)) states)) /\
       call_eqn hp other_top other t "calc_observables" params = Ok (Some (map (fun c => Some (expectation prob states (fun s => prodR (map (nthR s) c)))) cs))) /\
    (forall i other_top other name params value, (name = "p" \/ name = "calc_observables")%string ->
       call_eqn hp other_top other (firstn i t) name params = Ok value ->
       value = None \/ call_eqn hp other_top other t name params = Ok value).
Proof.
  intros license date hp n sym cts Hlic Hdate Hn Hlen Hok cs Hcs states.
  destruct (C22_write_eqns n sym cts (repeat 0 (length cs)) Hn Hlen Hok (repeat_length _ _)) as (f & _ & _ & E1 & _).
  destruct (text_of_file license date hp n sym cts f) as (t & T1 & _ & _ & sl & te & co & L & S1 & S2 & X1 & X2).
  - intros ls E. apply Forall_forall. intros l Hl. apply Forall_forall. intros x Hx ->. exact (Hlic ls E l Hl Hx).
  - apply Forall_forall. intros x Hx ->. exact (Hdate Hx).
  - exact Hlen.
  - intros subix Hs. apply (Hok subix Hs).
  - exact Hcs.
  - exact E1.
  - exists t. split; [exact T1|]. split.
    + intros ot other params Hp prob. destruct (C22_write_eqns n sym cts params Hn Hlen Hok Hp) as (f' & P & C & E1' & E2 & E3 & _ & _ & E6 & E7). rewrite E1 in E1'. injection E1' as <-.
      destruct (import_eqn hp ot t n sym sl te co (lexes_untab _ _ L (clean_lines _ _ _ _ _ _))) as [IC IP]. unfold call_eqn. rewrite IC, IP. cbn [bind]. split.
      * rewrite (xrun_lines other params hp _ S2 frame0 _ (X2 _ _ E2)), E3, map_map. reflexivity.
      * rewrite (xrun_lines other params hp _ S1 frame0 _ (X1 _ _ E6)), E7, map_map. reflexivity.
    + intros i ot other name params [val|] Hname H; [right|now left].
      apply (call_eqn_cut hp ot other t n sym sl te co (firstn i t) (skipn i t)); [exact L|exact S1|exact S2|symmetry; apply firstn_skipn| |exact H]. tauto.
Qed.
Print Assumptions C94_interrupted_ising.

(** Cuts of a file for two spins: inside the docstring of p, importing raises; after the
    docstring, p returns None. *)
Example C94_example :
  exists t, write_eqns_text None (lit "Written on 2020/01/01.") false 2 false [[[0; 1]%nat]; [[0%nat]; [1%nat]]] = Ok t /\ length t = 1386%nat /\
    (forall ot other params, call_eqn false ot other (firstn 975 t) "p" params = Err GenericException) /\
    (forall ot other params, call_eqn false ot other (firstn 976 t) "p" params = Ok None) /\
    (forall ot other params, call_eqn false ot other (firstn 800 t) "p" params = Err AttributeError).
Proof. eexists. split; [vm_compute; reflexivity|]. split; [vm_compute; reflexivity|]. split; [|split]; intros ot other params; vm_compute; reflexivity. Qed.
