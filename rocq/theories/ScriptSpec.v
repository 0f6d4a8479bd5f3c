(** * From programs to the page: a reader's specification

    C177: the page is the reference layout of the values that were last written
    to the declarations, however they were written. *)
From Coq Require Import ZArith QArith Qcanon Bool String List.
From Verif Require Import PyNum Units BoxModel Engine Values Shorthand Decl DeclSpec GrammarSpec ComputedSpec TableSpec EditSpec.
Import ListNotations.

(** The style [s] has, in every property the engine reads, the value that the
    last write means; the initial value if there was none or it unset the property. *)
Definition styled (E : effect) (s : style) : Prop :=
  forall q, engine_reads q = true -> exists v, means q (over Reset (E q)) v /\ ComputedSpec.shows s q = Some v.
(** The declaration [c] is what a program with the last writes [E] makes of a
    new one; its unit objects are those of the library. *)
Definition scripted (ho : hash_order) (c : css) (E : effect) : Prop :=
  exists l rs, Forall library_op l /\ with_layouts l /\ program l E rs /\ c = fst (run_ops ho l fresh_css first_free).
(** All declarations of a document are made by programs, and [sty] says what
    the programs wrote last. *)
Definition scripted_document (ho : hash_order) (sty : css -> style) : node css -> Prop :=
  program_document (fun c => exists E, scripted ho c E /\ styled E (sty c)).
