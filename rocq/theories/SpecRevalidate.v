(** Specification: validating a document that already exists (C74). *)
From Verif Require Import PyStr Value Types Rules Pydantic ClassTable Classes SpecParse SpecState.

(** The one place where the object model leaves open whether a plain dictionary or an object is meant: the key of
    a Kafka message binding (Schema, Reference or dict).  Settled: no plain dictionary there. *)
Definition settled (v : pv) : Prop :=
  forall fv ex d, within (VObj "KafkaMessageBindings" fv ex) v -> ~ In (u "key", VDict d) fv.
