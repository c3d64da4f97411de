(** * Agreement of debug and release builds *)

From Verif Require Import Outcome.

(** A function of the build profile returns the same in a release build as in a
    debug build, unless the debug build panics. *)
Definition agree {X : Type} (f : profile -> outcome X) : Prop := f Debug = Panic \/ f Debug = f Release.
