(** C58: the enumerations of header files. *)
From Verif.Model Require Import Py Annotations PygenArgs EnumScan.
From Verif.Spec Require Import PygenArgsSpec ClassNotesSpec EnumScanSpec.
From Verif.Proofs Require Import EnumScanProofs.
Open Scope string_scope.
Open Scope list_scope.

(** The script and the calls in memory are those for the enumerations that are wanted, in order; every line of the script other than a
    comment is read as a call of module.add_enum with the name, the values and the keyword arguments of the enumeration. *)
Theorem C58_scan (outer : option string) (l : list enumeration) (o : output) :
  scan_enums outer l (mk_output [] []) = Ok o -> scanned outer l (o_script o) (o_memory o).
Proof. intros H. destruct (scan_right outer l _ _ H) as (s & m & A & B & C). cbn in A, B. now rewrite A, B. Qed.
(** It fails only for a comment for the script without a text. *)
Theorem C58_scans (outer : option string) (l : list enumeration) :
  (exists o, scan_enums outer l (mk_output [] []) = Ok o) <->
  forall e, In e l -> wanted outer e -> e_part e <> None -> ~ first_of (e_notes e) ["pygen_comment"] "pygen_comment" None.
Proof. exact (scan_total outer l (mk_output [] [])). Qed.
(** The calls in memory are one for each enumeration that is wanted. *)
Theorem C58_memory (outer : option string) (l : list enumeration) (o : output) (a : list value) :
  scan_enums outer l (mk_output [] []) = Ok o -> (In a (map fst (o_memory o)) <-> exists e, In e l /\ wanted outer e /\ a = arguments e).
Proof.
  intros H. apply C58_scan in H. induction H as [|e l s m N _ IH|e l s m x W _ _ _ _ IH|e l s m x k ts W _ _ _ _ _ IH]; cbn [map fst In].
  - split; [intros []|intros (e & [] & _)].
  - rewrite IH. split; intros (y & I & Q & ->); [exists y; auto|]. destruct I as [<-|I]; [contradiction|exists y; auto].
  - rewrite IH. split; [intros [<-|(y & I & Q & ->)]; [exists e; auto|exists y; auto]|]. intros (y & [<-|I] & Q & ->); [now left|right; exists y; auto].
  - rewrite IH. split; [intros [<-|(y & I & Q & ->)]; [exists e; auto|exists y; auto]|]. intros (y & [<-|I] & Q & ->); [now left|right; exists y; auto].
Qed.
Print Assumptions C58_scan.
Print Assumptions C58_scans.
Print Assumptions C58_memory.

(** ** Cases *)
Definition colour := mk_enum "Colour" ["RED"; "GREEN"] true [("pygen_comment", Some "colours"); ("import_from_module", Some "it's")] (Some 0).
Example enums_scanned :
  scan_enums (Some "ns::Pen") [colour; mk_enum "Hidden" ["H"] false [] (Some 0); mk_enum "__x" ["X"] true [] (Some 0); mk_enum "Old" ["O"] true [("ignore", None)] (Some 0)] (mk_output [] []) =
  Ok (mk_output [(0, lit "## colours"); (0, lit "module.add_enum('Colour', ['RED', 'GREEN'], outer_class=root_module['ns::Pen'], import_from_module=""it's"")")]
                [([VStr "Colour"; VList [VStr "RED"; VStr "GREEN"]], [("outer_class", VClass "ns::Pen")])]).
Proof. vm_compute. reflexivity. Qed.
Example enum_read : calls (add_enum_line (Some "ns::Pen") colour) "module.add_enum" [VStr "Colour"; VList [VStr "RED"; VStr "GREEN"]]
  [("outer_class", VClass "ns::Pen"); ("import_from_module", VStr "it's")].
Proof. vm_compute. reflexivity. Qed.
Example comment_without_text : scan_enums None [mk_enum "E" [] true [("pygen_comment", None)] (Some 0)] (mk_output [] []) = Err TypeError.
Proof. vm_compute. reflexivity. Qed.

(** ** What does not hold *)
(** The script and the calls in memory differ: an enumeration of another module is imported when the script is run, but defined anew when
    the header is scanned without one. *)
Theorem C58_import_refuted : exists e o, e_part e = Some 0 /\ scan_enums None [e] (mk_output [] []) = Ok o /\
  o_memory o = [(arguments e, [("outer_class", VNone)])] /\
  exists t, o_script o = [(0, t)] /\ calls t "module.add_enum" (arguments e) [("import_from_module", VStr "other")].
Proof.
  exists (mk_enum "E" ["A"] true [("import_from_module", Some "other")] (Some 0)). eexists. split; [reflexivity|]. split; [vm_compute; reflexivity|].
  split; [reflexivity|]. eexists. split; [reflexivity|vm_compute; reflexivity].
Qed.
(** Reserved names are left out in classes, but not in namespaces. *)
Theorem C58_reserved_refuted : exists e, e_name e = "__e" /\
  scan_enums (Some "C") [e] (mk_output [] []) = Ok (mk_output [] []) /\ scan_enums None [e] (mk_output [] []) = Ok (mk_output [] [memory_call None e]).
Proof. exists (mk_enum "__e" [] true [] None). repeat split. Qed.
