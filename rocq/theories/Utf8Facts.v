(** Lemmas behind the theorems of PropertiesUtf8.v. *)

(** Property theorems about files that are read and written as text, C62: exactly the files that are UTF-8 are read, and what is written is UTF-8.
    After each theorem, a concrete case that meets its hypotheses, and its axioms. *)
Require Import Coq.Strings.String Coq.Strings.Ascii.
Require Import Coq.NArith.NArith Coq.ZArith.ZArith Coq.Lists.List Coq.Bool.Bool Coq.Arith.PeanoNat.
Require Import Coq.micromega.Lia.
Require Import Verif.Base Verif.MainModel Verif.MainCmd Verif.Utf8Spec.
Import ListNotations.
Local Open Scope string_scope.
Local Open Scope list_scope.

Ltac Zify.zify_post_hook ::= Z.to_euclidean_division_equations.

(* ---- lemmas ---- *)
Lemma byte_bound c : (N_of_ascii c < 256)%N.
Proof.
  apply N_ascii_bounded.
Qed.

Lemma bytes_cons c s : bytes (String c s) = N_of_ascii c :: bytes s.
Proof.
  reflexivity.
Qed.

Ltac cmp :=
  repeat match goal with
  | H : context [N.ltb ?a ?b] |- _ => destruct (N.ltb_spec a b)
  | H : context [N.leb ?a ?b] |- _ => destruct (N.leb_spec a b)
  | H : context [N.eqb ?a ?b] |- _ => destruct (N.eqb_spec a b)
  | |- context [N.ltb ?a ?b] => destruct (N.ltb_spec a b)
  | |- context [N.leb ?a ?b] => destruct (N.leb_spec a b)
  | |- context [N.eqb ?a ?b] => destruct (N.eqb_spec a b)
  end.

Lemma cont_spec c : is_cont c = true <-> (128 <= N_of_ascii c < 192)%N.
Proof.
  unfold is_cont.
  rewrite andb_true_iff, N.leb_le, N.ltb_lt.
  reflexivity.
Qed.

Lemma text_cons a s n cs : scalar n -> bytes a = encode1 n -> is_text s cs -> is_text (a ++ s)%string (n :: cs).
Proof.
  intros S E (F & T).
  split; [now constructor|].
  cbn [flat_map].
  rewrite <- E, <- T.
  unfold bytes.
  clear.
  induction a; cbn; [reflexivity|].
  now rewrite IHa.
Qed.

Lemma valid_text k : forall s, String.length s <= k -> valid_utf8 s = true -> exists cs, is_text s cs.
Proof.
  induction k; intros s L V.
  - destruct s; [|cbn in L; lia].
  exists [].
  split; [constructor|reflexivity].
  - destruct s as [|a s1]; [exists []; split; [constructor|reflexivity]|].
  cbn [String.length] in L.
  cbn [valid_utf8] in V.
  pose proof (byte_bound a).
  destruct (N.ltb_spec (N_of_ascii a) 128).
  { destruct (IHk s1 ltac:(lia) V) as (cs & T).
  exists (N_of_ascii a :: cs).
  apply (text_cons (String a "")); [left; lia| |exact T].
  unfold encode1.
  cmp; try lia.
  reflexivity.
  }
    destruct s1 as [|b s2]; [discriminate|].
  cbn [String.length] in L.
  destruct ((194 <=? N_of_ascii a) && (N_of_ascii a <? 224))%N eqn:E2.
  { apply andb_true_iff in V.
  destruct V as (B & V).
  apply cont_spec in B.
  apply andb_true_iff in E2.
  rewrite N.leb_le, N.ltb_lt in E2.
  destruct (IHk s2 ltac:(lia) V) as (cs & T).
  exists ((N_of_ascii a - 192) * 64 + (N_of_ascii b - 128) :: cs)%N.
  apply (text_cons (String a (String b ""))); [left; lia| |exact T].
  clear - E2 B.
  rewrite !bytes_cons.
  change (bytes "") with (@nil N).
  generalize dependent (N_of_ascii a).
  generalize dependent (N_of_ascii b).
  intros.
  unfold encode1.
  cmp; try lia.
  f_equal; [lia|].
  f_equal; lia.
  }
    destruct s2 as [|c s3]; [discriminate|].
  cbn [String.length] in L.
  destruct ((224 <=? N_of_ascii a) && (N_of_ascii a <? 240))%N eqn:E3.
  { repeat (apply andb_true_iff in V; destruct V as (V & ?)).
  repeat match goal with X : is_cont _ = true |- _ => apply cont_spec in X end.
  apply andb_true_iff in E3.
  rewrite N.leb_le, N.ltb_lt in E3.
  match goal with X : valid_utf8 _ = true |- _ => destruct (IHk s3 ltac:(lia) X) as (cs & T) end.
  exists ((N_of_ascii a - 224) * 4096 + (N_of_ascii b - 128) * 64 + (N_of_ascii c - 128) :: cs)%N.
  apply (text_cons (String a (String b (String c "")))); [| |exact T].
  - unfold scalar.
  cmp; try discriminate; lia.
  - clear IHk T.
  rewrite !bytes_cons.
  change (bytes "") with (@nil N).
  cmp; try discriminate;
        repeat match goal with X : _ = true |- _ => clear X | X : String.length _ <= _ |- _ => clear X end; clear L;
        generalize dependent (N_of_ascii a); generalize dependent (N_of_ascii b); generalize dependent (N_of_ascii c); intros;
        unfold encode1; cmp; try lia; (f_equal; [lia|]; f_equal; [lia|]; f_equal; lia).
  }
    destruct s3 as [|d s4]; [discriminate|].
  cbn [String.length] in L.
  repeat (apply andb_true_iff in V; destruct V as (V & ?)).
  repeat match goal with X : is_cont _ = true |- _ => apply cont_spec in X end.
  apply N.leb_le in V.
  match goal with X : (_ <? 245)%N = true |- _ => apply N.ltb_lt in X end.
  match goal with X : valid_utf8 _ = true |- _ => destruct (IHk s4 ltac:(lia) X) as (cs & T) end.
  exists ((N_of_ascii a - 240) * 262144 + (N_of_ascii b - 128) * 4096 + (N_of_ascii c - 128) * 64 + (N_of_ascii d - 128) :: cs)%N.
  apply (text_cons (String a (String b (String c (String d ""))))); [| |exact T].
  + unfold scalar.
  cmp; try discriminate; lia.
  + clear IHk T L E2 E3.
  rewrite !bytes_cons.
  change (bytes "") with (@nil N).
  cmp; try discriminate;
      repeat match goal with X : _ = true |- _ => clear X end;
      generalize dependent (N_of_ascii a); generalize dependent (N_of_ascii b); generalize dependent (N_of_ascii c); generalize dependent (N_of_ascii d); intros;
      unfold encode1; cmp; try lia; (f_equal; [lia|]; f_equal; [lia|]; f_equal; [lia|]; f_equal; lia).
Qed.

Lemma bytes_inv s n l : bytes s = n :: l -> exists c s', s = String c s' /\ N_of_ascii c = n /\ bytes s' = l.
Proof.
  destruct s as [|c s']; [discriminate|].
  rewrite bytes_cons.
  intros [= <- <-].
  now exists c, s'.
Qed.

Lemma bytes_nil s : bytes s = [] -> s = "".
Proof.
  now destruct s.
Qed.

Ltac inv_bytes E :=
  match type of E with
  | bytes ?s = _ :: _ =>
      let c := fresh "c" in let s' := fresh "s" in let Hc := fresh "Hc" in
      apply bytes_inv in E; destruct E as (c & s' & -> & Hc & E); inv_bytes E
  | _ => idtac
  end.

Ltac nums :=
  repeat match goal with
  | H : N_of_ascii ?c = _ |- _ => let x := fresh "x" in revert H; generalize (N_of_ascii c); intros x H
  end.

(** The bytes of a scalar value without divisions. *)
Lemma encode_cases n : scalar n ->
  (n < 0x80 /\ encode1 n = [n])%N \/
  (exists a b, 2 <= a < 32 /\ b < 64 /\ n = a * 64 + b /\ encode1 n = [0xC0 + a; 0x80 + b])%N \/
  (exists a b c, a < 16 /\ b < 64 /\ c < 64 /\ 0x800 <= n /\ n = a * 4096 + b * 64 + c /\ encode1 n = [0xE0 + a; 0x80 + b; 0x80 + c])%N \/
  (exists a b c d, a < 5 /\ b < 64 /\ c < 64 /\ d < 64 /\ 0x10000 <= n /\ n = a * 262144 + b * 4096 + c * 64 + d /\
     encode1 n = [0xF0 + a; 0x80 + b; 0x80 + c; 0x80 + d])%N.
Proof.
  unfold scalar, encode1.
  intros S.
  destruct (N.ltb_spec n 0x80); [left; now split|right].
  destruct (N.ltb_spec n 0x800); [left; exists (n / 64)%N, (n mod 64)%N; repeat split; lia|right].
  destruct (N.ltb_spec n 0x10000); [left; exists (n / 4096)%N, (n / 64 mod 64)%N, (n mod 64)%N; repeat split; lia|right].
  exists (n / 262144)%N, (n / 4096 mod 64)%N, (n / 64 mod 64)%N, (n mod 64)%N; repeat split; lia.
Qed.

Ltac Zify.zify_post_hook ::= idtac.

Lemma text_valid cs : forall s, is_text s cs -> valid_utf8 s = true.
Proof.
  induction cs as [|n cs IH]; intros s (F & E).
  { apply bytes_nil in E.
  now subst.
  }
  inversion F as [|? ? S F']; subst.
  cbn [flat_map] in E.
  destruct (encode_cases n S) as [(L & Q)|[(a & b & La & Lb & Hn & Q)|[(a & b & c & La & Lb & Lc & L & Hn & Q)|(a & b & c & d & La & Lb & Lc & Ld & L & Hn & Q)]]];
    rewrite Q in E; clear Q; cbn [app] in E; inv_bytes E;
    match type of E with bytes ?r = _ => assert (V : valid_utf8 r = true) by (apply IH; now split) end;
    clear IH F F' E; unfold scalar in S; cbn [valid_utf8]; unfold is_cont; rewrite V; clear V; nums; subst.
  - destruct (N.ltb_spec n 128); [reflexivity|lia].
  - repeat match goal with |- context [N.ltb ?x ?y] => destruct (N.ltb_spec x y); try (exfalso; lia) | |- context [N.leb ?x ?y] => destruct (N.leb_spec x y); try (exfalso; lia) end; reflexivity.
  - repeat match goal with |- context [N.ltb ?x ?y] => destruct (N.ltb_spec x y); try (exfalso; lia) | |- context [N.leb ?x ?y] => destruct (N.leb_spec x y); try (exfalso; lia) | |- context [N.eqb ?x ?y] => destruct (N.eqb_spec x y); try (exfalso; lia) end; reflexivity.
  - repeat match goal with |- context [N.ltb ?x ?y] => destruct (N.ltb_spec x y); try (exfalso; lia) | |- context [N.leb ?x ?y] => destruct (N.leb_spec x y); try (exfalso; lia) | |- context [N.eqb ?x ?y] => destruct (N.eqb_spec x y); try (exfalso; lia) end; reflexivity.
Qed.

Lemma text_once cs1 : forall cs2, Forall scalar cs1 -> Forall scalar cs2 -> flat_map encode1 cs1 = flat_map encode1 cs2 -> cs1 = cs2.
Proof.
  induction cs1 as [|n cs1 IH]; intros cs2 F1 F2 E.
  { destruct cs2 as [|m cs2]; [reflexivity|].
  cbn [flat_map] in E.
  unfold encode1 in E.
  destruct (m <? 0x80)%N, (m <? 0x800)%N, (m <? 0x10000)%N; discriminate.
  }
  destruct cs2 as [|m cs2].
  { cbn [flat_map] in E.
  unfold encode1 in E.
  destruct (n <? 0x80)%N, (n <? 0x800)%N, (n <? 0x10000)%N; discriminate.
  }
  inversion F1 as [|? ? S1 F1']; inversion F2 as [|? ? S2 F2']; subst.
  cbn [flat_map] in E.
  assert (Q : n = m /\ flat_map encode1 cs1 = flat_map encode1 cs2).
  { clear IH F1 F2 F1' F2'.
  generalize dependent (flat_map encode1 cs1).
  generalize dependent (flat_map encode1 cs2).
  intros l2 l1 E.
  destruct (encode_cases n S1) as [(L & Q)|[(a & b & La & Lb & Hn & Q)|[(a & b & c & La & Lb & Lc & L & Hn & Q)|(a & b & c & d & La & Lb & Lc & Ld & L & Hn & Q)]]];
    rewrite Q in E; clear Q;
    (destruct (encode_cases m S2) as [(L' & Q)|[(a' & b' & La' & Lb' & Hn' & Q)|[(a' & b' & c' & La' & Lb' & Lc' & L' & Hn' & Q)|(a' & b' & c' & d' & La' & Lb' & Lc' & Ld' & L' & Hn' & Q)]]]);
    rewrite Q in E; clear Q; cbn [app] in E; clear S1 S2.
  all: repeat match type of E with (?x :: _ = ?y :: _) => assert (x = y) by exact (f_equal (hd 0%N) E); apply (f_equal (@tl N)) in E; cbn [tl] in E; try (exfalso; lia) end.
  all: split; [lia|exact E].
  }
  destruct Q as (-> & Q).
  f_equal.
  now apply IH.
Qed.

Lemma encode_text s : is_text (utf8_encode s) (bytes s).
Proof.
  induction s as [|c s IH]; [split; [constructor|reflexivity]|].
  rewrite bytes_cons.
  cbn [utf8_encode].
  pose proof (byte_bound c) as B.
  destruct (N.ltb_spec (N_of_ascii c) 128).
  - apply (text_cons (String c "")); [left; lia| |exact IH].
  unfold encode1.
  destruct (N.ltb_spec (N_of_ascii c) 0x80); [reflexivity|lia].
  - apply (text_cons (String _ (String _ ""))); [left; lia| |exact IH].
  rewrite !bytes_cons, !N_ascii_embedding.
  + unfold encode1.
  destruct (N.ltb_spec (N_of_ascii c) 0x80); [lia|].
  destruct (N.ltb_spec (N_of_ascii c) 0x800); [reflexivity|lia].
  + pose proof (N.mod_upper_bound (N_of_ascii c) 64).
  lia.
  + assert (N_of_ascii c / 64 < 4)%N by (apply N.div_lt_upper_bound; lia).
  lia.
Qed.

Lemma text_app a b cs cs' : is_text a cs -> is_text b cs' -> is_text (a ++ b)%string (cs ++ cs').
Proof.
  intros (F & E) (F' & E').
  split; [now apply Forall_app|].
  rewrite flat_map_app, <- E, <- E'.
  unfold bytes.
  clear.
  induction a; cbn; [reflexivity|].
  now rewrite IHa.
Qed.

Lemma lem_C62_utf8 : forall s, valid_utf8 s = true <-> exists cs, is_text s cs.
Proof.
  intros s.
  split; [now apply (valid_text (String.length s))|].
  intros (cs & T).
  now apply (text_valid cs).
Qed.

Lemma lem_C62_one_text : forall s cs cs', is_text s cs -> is_text s cs' -> cs = cs'.
Proof.
  intros s cs cs' (F & E) (F' & E').
  apply text_once; [exact F|exact F'|congruence].
Qed.

Lemma lem_C62_refused : forall parse path w,
  (forall s cs, w_files w path = Some s -> ~ is_text s cs) ->
  (forall output l models buffers rpc, run_command parse (CGenerate path output l models buffers rpc) w = (IoError, w)) /\
  run_command parse (CYaml path) w = (IoError, w).
Proof.
  intros parse path w H.
  split; [intros; cbn [run_command]; unfold generate|cbn [run_command]];
    (destruct (w_files w path) as [s|] eqn:E; [|reflexivity];
     destruct (valid_utf8 s) eqn:V; [|reflexivity];
     apply lem_C62_utf8 in V; destruct V as (cs & T); destruct (H s cs eq_refl T)).
Qed.

Lemma lem_C62_read : forall parse input output l models buffers rpc w w' s cs,
  w_files w input = Some s -> is_text s cs ->
  run_command parse (CGenerate input output l models buffers rpc) w = (IoError, w') ->
  output <> "-" /\ (w_creatable w output = false \/ exists n, w_capacity w output = Some n).
Proof.
  intros parse input output l models buffers rpc w w' s cs E T R.
  assert (V : valid_utf8 s = true) by (apply lem_C62_utf8; now exists cs).
  cbn [run_command] in R.
  unfold generate in R.
  rewrite E, V in R.
  destruct (translate s l models buffers rpc); try discriminate R.
  unfold emit in R.
  destruct (String.eqb_spec output "-"); [discriminate R|].
  split; [assumption|].
  destruct (w_creatable w output); [right|now left].
  cbn [w_capacity set_file] in R.
  destruct (w_capacity w output) as [n0|]; [now exists n0|discriminate R].
Qed.

Lemma lem_C62_written : forall parse input output l models buffers rpc w w',
  run_command parse (CGenerate input output l models buffers rpc) w = (MainModel.Done, w') ->
  exists s cs, is_text s cs /\ Forall (fun c => (c < 256)%N) cs /\
    (output <> "-" -> w_files w' output = Some s /\ w_out w' = w_out w) /\
    (output = "-" -> w_out w' = (w_out w ++ s)%string /\ forall p, w_files w' p = w_files w p).
Proof.
  intros parse input output l models buffers rpc w w' R.
  cbn [run_command] in R.
  unfold generate in R.
  destruct (w_files w input) as [src|]; [|discriminate R].
  destruct (valid_utf8 src); [|discriminate R].
  destruct (translate src l models buffers rpc) as [data| |]; try discriminate R.
  assert (B : forall t, Forall (fun c => (c < 256)%N) (bytes t)).
  { intros t.
  induction t; [constructor|].
  rewrite bytes_cons.
  constructor; [apply byte_bound|assumption].
  }
  unfold emit in R.
  destruct (String.eqb_spec output "-") as [D|D].
  - injection R as <-.
  exists (utf8_encode data ++ nl)%string, (bytes data ++ bytes nl).
  split; [apply text_app; [apply encode_text|apply (encode_text nl)]|].
  split; [apply Forall_app; split; apply B|].
  split; [intros; contradiction|].
  intros _.
  split; reflexivity.
  - destruct (w_creatable w output); [|discriminate R].
  cbn [w_capacity set_file] in R.
  destruct (w_capacity w output); [discriminate R|].
  injection R as <-.
  exists (utf8_encode data), (bytes data).
  split; [apply encode_text|].
  split; [apply B|].
  split; [|intros; contradiction].
  intros _.
  cbn.
  rewrite String.eqb_refl.
  split; reflexivity.
Qed.

Lemma lem_C62_written_refuted : exists parse input output l models buffers rpc w w' s,
  run_command parse (CGenerate input output l models buffers rpc) w = (IoError, w') /\ w_files w' output = Some s /\ forall cs, ~ is_text s cs.
Proof.
  pose (w := mk_world (fun p => if String.eqb p "a.tpb" then Some ("const texts { A: String = """ ++ String "195" (String "169" """; }"))%string else None) "" (fun _ => true) (fun _ => Some 253)).
  pose (c := CGenerate "a.tpb" "a.dart" Dart false false false).
  assert (Q : match run_command (fun _ => None) c w with (IoError, w') => match w_files w' "a.dart" with Some s => negb (valid_utf8 s) | None => false end | _ => false end = true) by (vm_compute; reflexivity).
  exists (fun _ => None), "a.tpb", "a.dart", Dart, false, false, false, w.
  fold c.
  destruct (run_command (fun _ => None) c w) as (o & w') eqn:R.
  destruct o; try discriminate Q.
  destruct (w_files w' "a.dart") as [s|] eqn:F; [|discriminate Q].
  exists w', s.
  split; [reflexivity|].
  split; [exact F|].
  intros cs T.
  apply negb_true_iff in Q.
  assert (V : valid_utf8 s = true) by (apply lem_C62_utf8; now exists cs).
  congruence.
Qed.
