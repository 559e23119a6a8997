(** C01: code sinks deliver every line once, in order, at the accumulated indentation. *)
From Coq Require Import String List ZArith.
From Verif.Model Require Import Py CodeSink.
From Verif.Spec Require Import SinkSpec.
From Verif.Proofs Require SinkProofs.
Import ListNotations.
Open Scope string_scope.

(** Any history of writes/indents/unindents that never unindents too often, then a flush into any
    sink [dst]: the receiver gets exactly the written lines [out] (each with the indentation in force
    when written), trimmed, prefixed by the receiver's own indentation, after what it already had;
    the source is left empty, so flushing again is a no-op. *)
Theorem C01_flush_delivers : forall h,
  level_after h <> None ->
  exists src out,
    run (Mem mem_init) h = Ok (Mem src) /\ written [] h out /\
    mlines src = map indented out /\
    forall dst, exists src' ts dst',
      flush_to (Mem src) dst = Ok (Mem src', dst') /\
      Forall2 trimmed (map indented out) ts /\
      match dst with
      | Mem m => dst' = Mem {| mbase := mbase m;
                   mlines := (mlines m ++ map (fun t => indented (indent_level (mbase m), t)) ts)%list |}
      | File f => dst' = File {| fbase := fbase f;
                   ftext := ftext f ++ String.concat ""
                     (map (fun t => indented (indent_level (fbase f), t) ++ String newline "") ts) |}
      | Null b => dst' = Null b
      end /\
      mbase src' = mbase src /\
      forall d, flush_to (Mem src') d = Ok (Mem src', d).
Proof. exact SinkProofs.flush_delivers. Qed.
Print Assumptions C01_flush_delivers.

(** The lines written by a history are determined by it. *)
Theorem C01_written_unique : forall h o1 o2, written [] h o1 -> written [] h o2 -> o1 = o2.
Proof. exact (fun h o1 o2 H => SinkProofs.written_fun [] h o1 H o2). Qed.
Print Assumptions C01_written_unique.

(** Trimming is determined too. *)
Theorem C01_trimmed_unique : forall s t u, trimmed s t -> trimmed s u -> t = u.
Proof. exact SinkProofs.trimmed_fun. Qed.
Print Assumptions C01_trimmed_unique.

(** For a fresh sink of any kind the level used is the sum of the open indents, and the only failure is
    an unindent with nothing to undo, reported as IndexError. *)
Theorem C01_level_in_force : forall h s s',
  SinkProofs.sink_base s = base_init -> run s h = Ok s' ->
  level_after h = Some (indent_level (SinkProofs.sink_base s')).
Proof. exact SinkProofs.level_in_force. Qed.
Print Assumptions C01_level_in_force.

Theorem C01_underflow : forall h s,
  SinkProofs.sink_base s = base_init ->
  (run s h = Err IndexError <-> level_after h = None) /\
  (forall e, run s h = Err e -> e = IndexError).
Proof. exact SinkProofs.underflow. Qed.
Print Assumptions C01_underflow.

(** Flushing to a string: the same lines, newline separated and terminated, at the current level. *)
Theorem C01_flush_text : forall h,
  level_after h <> None ->
  exists src out lvl,
    run (Mem mem_init) h = Ok (Mem src) /\ written [] h out /\ level_after h = Some lvl /\
    snd (mem_flush src) =
      String.concat (String newline "") (map (fun p => pad lvl ++ indented p) out) ++ String newline "" /\
    mlines (fst (mem_flush src)) = [].
Proof. exact SinkProofs.flush_text. Qed.
Print Assumptions C01_flush_text.

Theorem C01_null_refuses : forall b dst, flush_to (Null b) dst = Err TypeError.
Proof. exact SinkProofs.null_refuses. Qed.
Print Assumptions C01_null_refuses.

(** Non-vacuity: a nested history meets the hypothesis and its output is not trivial. *)
Example C01_example :
  let h := [OWrite "if (x) {"; OIndent 4; OWrite (("a;" ++ String newline "b;")%string); OUnindent; OWrite "}"] in
  level_after h <> None /\
  (exists src, run (Mem mem_init) h = Ok (Mem src) /\ mlines src = ["if (x) {"; "    a;"; "    b;"; "}"]).
Proof. split; [discriminate|]. eexists; split; reflexivity. Qed.

Example C01_example_underflow : level_after [OIndent 2; OUnindent; OUnindent] = None.
Proof. reflexivity. Qed.
