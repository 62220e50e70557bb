(** Files on disk as the compilers of Rust and Dart read them; independent of the generators. *)
Require Import Coq.Strings.String Coq.Strings.Ascii Coq.NArith.NArith Coq.Bool.Bool Coq.Lists.List.
Require Import Verif.Base Verif.MainModel.
Require Verif.RustSyntax Verif.RustFile Verif.DartSyntax Verif.DartFile.
Local Open Scope string_scope.

(** UTF-8 of code points below 256, which are the characters of the texts of this development: one byte below 128, else two. *)
Fixpoint utf8_decode (bytes : string) : option string :=
  match bytes with
  | "" => Some ""
  | String a rest =>
      let n := N_of_ascii a in
      if (n <? 128)%N then option_map (String a) (utf8_decode rest)
      else if ((194 <=? n) && (n <=? 195))%N then
        match rest with
        | String b rest =>
            let m := N_of_ascii b in
            if ((128 <=? m) && (m <? 192))%N then option_map (String (ascii_of_N ((n - 192) * 64 + (m - 128)))) (utf8_decode rest) else None
        | "" => None
        end
      else None
  end.

(** The file at a path, read as a Rust file and as a Dart file. *)
Definition rust_file_at (w : world) (path : string) (items : list RustSyntax.item) : Prop :=
  exists bytes text, w_files w path = Some bytes /\ utf8_decode bytes = Some text /\ RustSyntax.rust_file text = Some items.
Definition dart_file_at (w : world) (path : string) (items : list DartSyntax.ditem) : Prop :=
  exists bytes text, w_files w path = Some bytes /\ utf8_decode bytes = Some text /\ DartSyntax.dart_file text = Some items.
