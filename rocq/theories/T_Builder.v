(** * Theorems about the contents of built elements (C37) *)
From Verif Require Import Base M_Geometry M_Xml M_Cell M_Builder S_Cell S_Builder P_Builder.

(** A new element gets the characters and the nodes of the content, in order... *)
Theorem C37_content_partial : forall tag attrs tail c, writable c ->
    exists e, append_cell_elements (XElem tag attrs None [] tail) c = Ok e /\
      x_tag e = Some tag /\ x_attrs e = attrs /\ x_tail e = tail /\
      elem_pieces e = content_pieces c /\
      get_node_text e = String.append (get_content_text c) (ostr tail).
Proof.
  intros tag attrs tail c HW. unfold append_cell_elements. pose proof (append_elements_spec c) as H.
  destruct (append_elements c (None, [])) as [[text ch]|x]; [|destruct H; contradiction].
  destruct H as [_ H]. eexists. split; [reflexivity|]. cbn [fst snd x_tag x_attrs x_tail].
  split; [reflexivity|]. split; [reflexivity|]. split; [reflexivity|]. split; [exact H|].
  rewrite elem_text. unfold elem_pieces. cbn [x_text x_children]. change (otext_pieces text ++ flat_map node_pieces ch) with (pair_pieces (text, ch)).
  rewrite H, piece_text_content. destruct tail; reflexivity.
Qed.

(** ... and TypeError is raised for the other contents, and no other exception. *)
Theorem C37_type_error : forall tag attrs tail c x,
    append_cell_elements (XElem tag attrs None [] tail) c = Err x <-> x = ETypeError /\ ~ writable c.
Proof.
  intros tag attrs tail c x. unfold append_cell_elements. pose proof (append_elements_spec c) as H.
  destruct (append_elements c (None, [])) as [e|y]; cbn [rbind].
  - split; [discriminate|]. intros [_ HW]. destruct H. contradiction.
  - destruct H as [-> H]. split; [intros [= <-]; auto|intros [-> _]; reflexivity].
Qed.

(** Appending a list to an element which has already something adds to it. *)
Theorem C37_append_list : forall tag attrs text ch tail l, writable (CList l) ->
    exists e, append_cell_elements (XElem tag attrs text ch tail) (CList l) = Ok e /\
      elem_pieces e = elem_pieces (XElem tag attrs text ch tail) ++ content_pieces (CList l).
Proof.
  intros tag attrs text ch tail l HW. unfold append_cell_elements. cbn [append_elements].
  pose proof (append_all_spec l (text, ch)) as H. destruct (append_all l (text, ch)) as [[t' ch']|x]; [|destruct H; contradiction].
  destruct H as [_ H]. eexists. split; [reflexivity|]. exact H.
Qed.

(** A list may hold a number, [None] or a list: [str(cell)] gives its text, but it cannot be written. *)
Theorem C37_nested_content_refuted : exists l,
    get_content_text (CList l) = "a12"%string /\
    forall tag attrs tail, append_cell_elements (XElem tag attrs None [] tail) (CList l) = Err ETypeError.
Proof. exists [CText "a"; CNum 12]%string. split; [vm_compute; reflexivity|]. intros. reflexivity. Qed.

Definition ex_mixed : content :=
  CList [CText "a"; CText "b"; CNode (XElem "p" [("k", "v")] (Some "x") [] (Some "y")); CText "c"; CNode (XPI "t" "d" None); CText "e"]%string.
Example C37_ex : writable ex_mixed /\
  append_cell_elements (XElem "entry" [] None [] None) ex_mixed
  = Ok (XElem "entry" [] (Some "ab") [XElem "p" [("k", "v")] (Some "x") [] (Some "yc"); XPI "t" "d" (Some "e")] None)%string.
Proof. split; [|vm_compute; reflexivity]. intros d Hd. cbn in Hd. repeat destruct Hd as [<-|Hd]; try exact I. destruct Hd. Qed.

Print Assumptions C37_content_partial.
Print Assumptions C37_type_error.
Print Assumptions C37_append_list.
Print Assumptions C37_nested_content_refuted.
