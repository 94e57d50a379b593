(** C181: dates as text. *)
From Coq Require Import ZArith List Bool Lia.
From Verif.Model Require Import DateText.
From Verif.Spec Require Import DateText.
From Verif.Proofs Require DateText.
Import ListNotations.
Open Scope Z_scope.

(** One text for each date, in their order, that says the date; a single date gives a list of one. *)
Theorem C181_each : forall l, Forall is_date l -> exists r, date2str (Many l) None = Some r /\ Forall2 (fun t s => reads s t) l r.
Proof.
  intros l F.
  assert (X : exists r, Forall2 (fun t s => strftime default_format t = Some s) l r /\ Forall2 (fun t s => reads s t) l r).
  { induction F as [|t l T _ (r & A & B)]; [exists []; split; constructor|]. destruct (Proofs.DateText.text_reads t T) as (s & E & R). exists (s :: r). split; constructor; assumption. }
  destruct X as (r & A & B). exists r. split; [|exact B]. apply Proofs.DateText.each_text. exact A.
Qed.
Theorem C181_single : forall t f, date2str (One t) f = date2str (Many [t]) f.
Proof. reflexivity. Qed.
(** No two dates have the same text. *)
Theorem C181_injective : forall s t a, is_date s -> is_date t -> date2str (One s) None = Some a -> date2str (One t) None = Some a -> s = t.
Proof.
  intros s t a S T A B. destruct (Proofs.DateText.text_reads s S) as (x & E & R). destruct (Proofs.DateText.text_reads t T) as (y & E' & R').
  cbn [date2str fold_right] in A, B. rewrite E in A. rewrite E' in B. rewrite <- B in A. injection A as A. subst y. exact (Proofs.DateText.reads_one x s t R R').
Qed.
(** Sorting the texts sorts the dates, from the year 1000 on; before, see the refutation. *)
Theorem C181_order_partial : forall s t a b, is_date s -> is_date t -> 1000 <= year s -> 1000 <= year t ->
  date2str (Many [s; t]) None = Some [a; b] -> (sorts_before a b <-> earlier s t).
Proof.
  intros s t a b S T LS LT H. apply Proofs.DateText.each_text in H. inversion H as [|? ? ? ? A H1]; subst. inversion H1 as [|? ? ? ? B _]; subst.
  exact (Proofs.DateText.text_order s t a b S T LS LT A B).
Qed.
Theorem C181_order_refuted : exists s t a b, is_date s /\ is_date t /\ date2str (Many [s; t]) None = Some [a; b] /\ earlier s t /\ ~ sorts_before a b.
Proof.
  exists (Moment 999 12 31 23 59 59 0), (Moment 2020 1 2 3 4 5 678). do 2 eexists. split; [|split; [|split; [reflexivity|split]]].
  - unfold is_date. cbn. lia.
  - unfold is_date. cbn. lia.
  - cbn. lia.
  - cbn. lia.
Qed.
(** Formats of the caller: text is kept, directives are replaced by what they stand for. *)
Theorem C181_format : forall t ps, is_date t -> Forall part_ok ps ->
  exists ss, date2str (One t) (Some (concat (map written ps))) = Some [concat ss] /\ Forall2 (says_part t) ps ss.
Proof.
  intros t ps T P. destruct (Proofs.DateText.format_parts t ps T P) as (ss & E & F). exists ss. split; [|exact F]. cbn [date2str fold_right]. rewrite E. reflexivity.
Qed.

(** ** Examples *)
Example C181_hyp : is_date (Moment 2020 1 2 3 4 5 678) /\ Forall part_ok [Field 72; Text [104]; Field 77] /\
  date2str (One (Moment 2020 1 2 3 4 5 678)) None =
  Some [[50; 48; 50; 48; 45; 48; 49; 45; 48; 50; 32; 48; 51; 58; 48; 52; 58; 48; 53; 46; 48; 48; 48; 54; 55; 56]] /\
  earlier (Moment 2020 1 2 3 4 5 678) (Moment 2020 1 2 3 4 6 0).
Proof.
  split; [unfold is_date; cbn; lia|]. split; [|split; [reflexivity|cbn; lia]].
  repeat (apply Forall_cons; [cbn; try tauto; intros [H|[]]; discriminate H|]). apply Forall_nil.
Qed.

(** All the theorems of this file, for one listing of axioms. *)
Definition all_theorems :=
  (@C181_each,
   @C181_single,
   @C181_injective,
   @C181_order_partial,
   @C181_order_refuted,
   @C181_format).
Print Assumptions all_theorems.
