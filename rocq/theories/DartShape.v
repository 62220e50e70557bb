(** What changes elsewhere in the heap do not affect: representations and shapes. *)
Require Import Coq.Strings.String Coq.Strings.Ascii.
Require Import Coq.NArith.NArith Coq.ZArith.ZArith Coq.Lists.List Coq.Bool.Bool Coq.Arith.PeanoNat Coq.micromega.Lia.
Require Import Verif.Base Verif.Ast Verif.CaseConv Verif.Code Verif.RustSem Verif.Wire Verif.RustCodec.
Require Import Verif.DartSyntax Verif.DartSem Verif.DartWire Verif.DartRun.
Import ListNotations.
Local Open Scope string_scope.
Local Open Scope list_scope.

Scheme shaped_ind2 := Minimality for shaped Sort Prop
  with shaped_slots_ind2 := Minimality for shaped_slots Sort Prop
  with shaped_items_ind2 := Minimality for shaped_items Sort Prop.
Combined Scheme shaped_all from shaped_ind2, shaped_slots_ind2, shaped_items_ind2.

Section Shapes.
Variable ds : list decl.
Variable classes : list string.
Notation shaped := (shaped ds classes).
Notation shaped_slots := (shaped_slots ds classes).
Notation shaped_items := (shaped_items ds classes).

Definition same_on (fp : list nat) (h h' : heap) : Prop := forall b, In b fp -> nth_error h' b = nth_error h b.
Lemma same_on_app l m h h' : same_on (l ++ m) h h' -> same_on l h h' /\ same_on m h h'.
Proof. intros S. split; intros b I; apply S, in_or_app; tauto. Qed.
Lemma same_on_cons a l h h' : same_on (a :: l) h h' -> nth_error h' a = nth_error h a /\ same_on l h h'.
Proof. intros S. split; [apply S; now left|]. intros b I. apply S. now right. Qed.

Lemma frame_all h h' :
  (forall w t fp, shaped h w t fp -> same_on fp h h' -> shaped h' w t fp) /\
  (forall cfs ss fp, shaped_slots h cfs ss fp -> same_on fp h h' -> shaped_slots h' cfs ss fp) /\
  (forall n cfs l fp, shaped_items h n cfs l fp -> same_on fp h h' -> shaped_items h' n cfs l fp).
Proof.
  apply shaped_all.
  - intros. now constructor.
  - intros. apply sh_string.
  - intros a m x N O E S. eapply sh_ext; try eassumption. rewrite (S a); [eassumption|now left].
  - intros a g l x O E S. eapply sh_opaque; try eassumption. rewrite (S a); [eassumption|now left].
  - intros a t l E S. eapply sh_list. rewrite (S a); [eassumption|now left].
  - intros. eapply sh_empty; eassumption.
  - intros n s a cfs fp E F N _ IH S. apply same_on_cons in S as [S1 S2]. eapply sh_struct; try eassumption.
    + rewrite S1. eassumption.
    + now apply IH.
  - intros n e a cfs v fp E N L _ IH S. apply same_on_cons in S as [S1 S2]. eapply sh_enum; try eassumption.
    + rewrite S1. eassumption.
    + now apply IH.
  - intros. constructor.
  - intros cfs n t l w fp fp' L _ IH _ IH' S. apply same_on_app in S as [S1 S2]. econstructor; eauto.
  - intros. constructor.
  - intros n cfs i l fp E L _ IH S. eapply si_empty; eauto.
  - intros n cfs i l b gfs fp fp' E L N _ IH _ IH' S. apply same_on_cons in S as [S1 S2]. apply same_on_app in S2 as [S2 S3].
    eapply si_cons; eauto. rewrite S1. exact N.
Qed.
Lemma shaped_frame h h' w t fp : shaped h w t fp -> same_on fp h h' -> shaped h' w t fp.
Proof. apply frame_all. Qed.
Lemma slots_frame h h' cfs ss fp : shaped_slots h cfs ss fp -> same_on fp h h' -> shaped_slots h' cfs ss fp.
Proof. apply frame_all. Qed.
Lemma items_frame h h' n cfs l fp : shaped_items h n cfs l fp -> same_on fp h h' -> shaped_items h' n cfs l fp.
Proof. apply frame_all. Qed.

(** Slots depend on the fields only by their names. *)
Lemma slots_fields h cfs cfs' ss fp : shaped_slots h cfs ss fp -> (forall x, In x (map fst ss) -> lookup x cfs' = lookup x cfs) ->
  shaped_slots h cfs' ss fp.
Proof.
  revert cfs fp. induction ss as [|[n t] ss IH]; intros cfs fp S E; inversion S as [|? ? ? ? ? ? ? L W R]; subst; [constructor|].
  econstructor; [rewrite E; [eassumption|now left]|eassumption|]. eapply IH; [eassumption|]. intros x I. apply E. now right.
Qed.
Lemma items_fields h n cfs cfs' l fp : shaped_items h n cfs l fp ->
  (forall x, In x (map (fun i => camel (item_name i)) l) -> lookup x cfs' = lookup x cfs) -> shaped_items h n cfs' l fp.
Proof.
  revert fp. induction l as [|i l IH]; intros fp S E; inversion S; subst.
  - constructor.
  - econstructor 2; [assumption|rewrite E; [eassumption|now left]|]. eapply IH; [eassumption|]. intros x I. apply E. now right.
  - econstructor 3; [assumption|rewrite E; [eassumption|now left]|eassumption|eassumption|]. eapply IH; [eassumption|]. intros x I. apply E. now right.
Qed.

(** The objects are in the heap. *)
Lemma dom_all h :
  (forall w t fp, shaped h w t fp -> forall b, In b fp -> b < List.length h) /\
  (forall cfs ss fp, shaped_slots h cfs ss fp -> forall b, In b fp -> b < List.length h) /\
  (forall n cfs l fp, shaped_items h n cfs l fp -> forall b, In b fp -> b < List.length h).
Proof.
  apply shaped_all; try (intros; contradiction); cbn [In].
  - intros a m x _ _ E b [<-|[]]. now apply nth_some_lt in E.
  - intros a g l x _ E b [<-|[]]. now apply nth_some_lt in E.
  - intros a t l E b [<-|[]]. now apply nth_some_lt in E.
  - intros n s a cfs fp _ _ E _ IH b [<-|I]; [now apply nth_some_lt in E|now apply IH].
  - intros n e a cfs v fp _ E _ _ IH b [<-|I]; [now apply nth_some_lt in E|now apply IH].
  - intros cfs n t l w fp fp' _ _ IH _ IH' b I. apply in_app_or in I as [I|I]; auto.
  - intros n cfs i l fp _ _ _ IH b I. auto.
  - intros n cfs i l b' gfs fp fp' _ _ E _ IH _ IH' b [<-|I]; [now apply nth_some_lt in E|]. apply in_app_or in I as [I|I]; auto.
Qed.
Lemma shaped_dom h w t fp b : shaped h w t fp -> In b fp -> b < List.length h.
Proof. intros S. now apply (proj1 (dom_all h) _ _ _ S). Qed.
Lemma slots_dom h cfs ss fp b : shaped_slots h cfs ss fp -> In b fp -> b < List.length h.
Proof. intros S. now apply (proj1 (proj2 (dom_all h)) _ _ _ S). Qed.
Lemma items_dom h n cfs l fp b : shaped_items h n cfs l fp -> In b fp -> b < List.length h.
Proof. intros S. now apply (proj2 (proj2 (dom_all h)) _ _ _ _ S). Qed.

(** Changes to other objects keep shapes. *)
Lemma changes_same h h' fp fp' : changes h h' fp -> (forall b, In b fp' -> b < List.length h /\ ~ In b fp) -> same_on fp' h h'.
Proof. intros [_ C] N b I. destruct (N b I). now apply C. Qed.
End Shapes.

Section Reps.
Variable U : support.
Variable ds : list decl.
Notation rep := (rep U ds).

Lemma all2P_imp {A B} (f g : A -> B -> Prop) l m : (forall a b, In a l -> f a b -> g a b) -> all2P f l m -> all2P g l m.
Proof.
  revert m. induction l as [|a l IH]; intros [|b m] H; cbn; try tauto. intros [X Y]. split; [apply H; [now left|assumption]|].
  apply IH; [|assumption]. intros a' b' I. apply H. now right.
Qed.
Lemma all2P_map {A A' B} (g : A' -> A) (f : A -> B -> Prop) l m : all2P (fun a b => f (g a) b) l m <-> all2P f (map g l) m.
Proof. revert m. induction l as [|a l IH]; intros [|b m]; cbn; try tauto. now rewrite IH. Qed.
Lemma all2P_length {A B} (f : A -> B -> Prop) l m : all2P f l m -> List.length l = List.length m.
Proof. revert m. induction l as [|a l IH]; intros [|b m]; cbn; try tauto. intros [_ X]. f_equal. now apply IH. Qed.
Lemma cat2_map {A A' B} (g : A' -> A) (f : A -> B -> bytes) l m : cat2 (fun a b => f (g a) b) l m = cat2 f (map g l) m.
Proof. revert m. induction l as [|a l IH]; intros [|b m]; cbn; try reflexivity. now rewrite IH. Qed.

Lemma rep_frame_upto d : forall v, depth v <= d -> forall (P P' : nat -> Prop) h h' w t,
  (forall b, P b -> P' b /\ nth_error h' b = nth_error h b) -> rep P h w v t -> rep P' h' w v t.
Proof.
  induction d as [|d IH]; intros v L P P' h h' w t H R.
  { exfalso. destruct v as [| | | | | | | | |[] | | | | | | | | | | | | | | | |]; cbn in L; lia. }
  assert (FS : forall (fs : list (string * val)) ss cfs, S (list_max (map (fun '(_, v) => depth v) fs)) <= S d ->
    all2P (fun '(_, v) (f : slot) => exists u, lookup (fst f) cfs = Some u /\ rep P h u v (snd f)) fs ss ->
    all2P (fun '(_, v) (f : slot) => exists u, lookup (fst f) cfs = Some u /\ rep P' h' u v (snd f)) fs ss).
  { intros fs ss cfs L' A. eapply all2P_imp; [|exact A]. intros [x u] f I (y & Y & Z). exists y. split; [assumption|].
    eapply IH; [|exact H|exact Z]. apply (in_map (fun '(_, v) => depth v)) in I. apply list_max_in in I. cbn in I. lia. }
  assert (TS : forall (l : list val) (ss : list slot) cfs, S (list_max (map depth l)) <= S d ->
    all2P (fun v (f : slot) => exists u, lookup (fst f) cfs = Some u /\ rep P h u v (snd f)) l ss ->
    all2P (fun v (f : slot) => exists u, lookup (fst f) cfs = Some u /\ rep P' h' u v (snd f)) l ss).
  { intros fs ss cfs L' A. eapply all2P_imp; [|exact A]. intros u f I (y & Y & Z). exists y. split; [assumption|].
    eapply IH; [|exact H|exact Z]. apply (in_map depth) in I. apply list_max_in in I. lia. }
  assert (O : forall n (k k' : list (string * dval) -> Prop) u, (forall cfs, k cfs -> k' cfs) ->
    (exists b cfs, u = dref b /\ P b /\ nth_error h b = Some (CObj n cfs) /\ k cfs) ->
    (exists b cfs, u = dref b /\ P' b /\ nth_error h' b = Some (CObj n cfs) /\ k' cfs)).
  { intros n k k' u KK (b & cfs & -> & B & E & X). destruct (H b B) as [B' E']. exists b, cfs. rewrite E'. auto. }
  destruct v; cbn [DartWire.rep] in R |- *; try assumption.
  - destruct fs; [assumption|]. revert R. apply O. intros cfs. now apply FS.
  - destruct R as (a & cfs & -> & B & E & V & u & X & Y). destruct (H a B) as [B' E']. exists a, cfs. rewrite E'. eauto 9.
  - destruct R as (a & cfs & -> & B & E & V & u & X & Y). destruct (H a B) as [B' E']. exists a, cfs. rewrite E'.
    repeat split; try assumption. exists u. split; [assumption|]. revert Y. apply O. intros gfs. now apply TS.
  - destruct R as (a & cfs & -> & B & E & V & u & X & Y). destruct (H a B) as [B' E']. exists a, cfs. rewrite E'.
    repeat split; try assumption. exists u. split; [assumption|]. revert Y. apply O. intros gfs. now apply FS.
  - destruct R as (a & ws & -> & B & E & X). destruct (H a B) as [B' E']. exists a, ws. rewrite E'. repeat split; try assumption.
    eapply all2P_imp; [|exact X]. intros u y I Z. eapply IH; [|exact H|exact Z].
    apply (in_map depth) in I. apply list_max_in in I. cbn [depth] in L. lia.
  - destruct (is_string_type t); [assumption|]. destruct R as (a & -> & B & E). destruct (H a B) as [B' E']. exists a. rewrite E'. auto.
Qed.
Lemma rep_frame v (P P' : nat -> Prop) h h' w t :
  (forall b, P b -> P' b /\ nth_error h' b = nth_error h b) -> rep P h w v t -> rep P' h' w v t.
Proof. apply (rep_frame_upto (depth v)). lia. Qed.
Lemma rep_not_late P h w v t : rep P h w v t -> w <> dlate.
Proof.
  destruct v; cbn [DartWire.rep]; intros R E; try contradiction R; rewrite E in R.
  - destruct t; discriminate R.
  - destruct fs; [discriminate R|]. now destruct R as (b & cfs & R & _).
  - now destruct R as (b & cfs & R & _).
  - now destruct R as (b & cfs & R & _).
  - now destruct R as (b & cfs & R & _).
  - now destruct R as (b & cfs & R & _).
  - destruct (is_string_type t); [discriminate R|]. now destruct R as (b & R & _).
Qed.
End Reps.
