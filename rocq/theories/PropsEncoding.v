(** C52: the encoding of an XML file (Python/ades/getencoding). *)
From Verif Require Import GetEncoding EncSpec EncProofs1 EncProofs2 EncProofs3.

(** For every text whose first line is an XML declaration, however the text goes on: stored in
    UTF-8 with a byte order mark, or in UTF-16 or UTF-32 of either byte order with or without it,
    getencoding reports the encoding the declaration names (UTF-8 if it names none), how the
    file is stored, and its byte order and mark. *)
Theorem C52_declared_encoding utf7 line coding t file ty remark :
  tells line coding -> begins_with line t -> Forall scalar t -> stored t file ty remark ->
  getXMLFileEncoding utf7 file = Ok (coding, ty, remark).
Proof. exact (stored_reported utf7 line coding t file ty remark). Qed.
Print Assumptions C52_declared_encoding.

(** For files that begin with ASCII and no mark - UTF-8, ISO 8859 and the like: the bytes behind
    the first 2 n + 73, n the length of the declaration, may be any. *)
Theorem C52_declared_in_ascii utf7 line coding a rest :
  tells line coding -> begins_with line a -> Forall (fun c => (c < 128)%N) a ->
  rest = [] \/ (2 * length line + 73 <= length a)%nat ->
  getXMLFileEncoding utf7 (a ++ rest) = Ok (coding, $"ascii", $"no_BOM").
Proof. exact (ascii_reported utf7 line coding a rest). Qed.
Print Assumptions C52_declared_in_ascii.

(** For files in EBCDIC; [cp500] is the table of the code page 500. *)
Theorem C52_declared_in_ebcdic utf7 line coding file :
  tells line coding -> Forall (fun x => (x < 256)%N) file -> begins_with line (map cp500 file) ->
  getXMLFileEncoding utf7 file = Ok (coding, $"CP500", $"EBCDIC").
Proof. exact (ebcdic_reported utf7 line coding file). Qed.
Print Assumptions C52_declared_in_ebcdic.

(** RuntimeError is raised for exactly the files that begin with none of the 14 known starts. *)
Theorem C52_refused utf7 file : getXMLFileEncoding utf7 file = Err RuntimeError <-> ~ recognised file.
Proof. exact (iff_trans (refused_iff_untyped utf7 file) (untyped_iff utf7 file)). Qed.
Print Assumptions C52_refused.

(** Files in the unusual byte orders are recognised but can never be read. *)
Theorem C52_unusual_orders utf7 m r : In m [[0; 0; 255; 254]; [254; 255; 0; 0]; [0; 0; 60; 0]; [0; 60; 0; 0]]%N ->
  getXMLFileEncoding utf7 (m ++ r) = Err ValueError.
Proof. exact (unusual_refused utf7 m r). Qed.
Print Assumptions C52_unusual_orders.

(** * Examples *)
Definition none : decoder := fun _ => ([], true).
Definition decl : chars := letters $"<?xml version=""1.0"" encoding='ISO-8859-1'?>".
Definition latin : chars := letters $"ISO-8859-1".
Lemma decl_tells : tells decl latin.
Proof.
  left. apply (declares_it latin (letters $" version=""1.0"" ") (letters $"?>") 39%N).
  - apply one_line_b. vm_compute. reflexivity.
  - apply one_line_b. vm_compute. reflexivity.
  - apply cut_complete. vm_compute. reflexivity.
  - unfold latin, letters, name_char. cbn [map lit list_ascii_of_string code].
    repeat (constructor; [vm_compute; first [left; split; discriminate|right; left; split; discriminate|right; right; left; split; discriminate|right; right; right; tauto]|]). constructor.
  - now left.
Qed.
(** the rest of the file, in any of the encodings, and with characters of any plane *)
Definition body : chars := (letters $"<ades>" ++ [233; 8364; 128512]%N)%list.
Example C52_stored_example be :
  getXMLFileEncoding none (flat_map (utf16_of be) (mark :: decl ++ 10%N :: body)) = Ok (latin, $"UTF-16", if be then $"big-endian_BOM" else $"little-endian_BOM").
Proof.
  apply (C52_declared_encoding none decl latin (decl ++ 10%N :: body)); [exact decl_tells|constructor; now left| |apply in_utf16_mark].
  repeat (constructor; [first [left; vm_compute; reflexivity|right; split; [vm_compute; discriminate|vm_compute; reflexivity]]|]). constructor.
Qed.
Example C52_default_example : getXMLFileEncoding none (flat_map utf8_of (mark :: letters $"<?xml version=""1.0""?>")) = Ok (letters $"UTF-8", $"utf-8", $"with_BOM").
Proof.
  apply (C52_declared_encoding none (letters $"<?xml version=""1.0""?>") (letters $"UTF-8") (letters $"<?xml version=""1.0""?>")); [|apply ended_by_nothing| |apply in_utf8_mark].
  - right. split; [|reflexivity]. exists (letters $" version=""1.0""?>"). split; [reflexivity|]. split; [apply one_line_b; vm_compute; reflexivity|].
    apply cut_complete. vm_compute. reflexivity.
  - repeat (constructor; [left; vm_compute; reflexivity|]). constructor.
Qed.
(** a file in ISO 8859-1, with bytes that are not ASCII behind the 161st *)
Definition tail : bytes := [233; 255; 0; 200]%N.
Definition start : chars := (decl ++ 10%N :: letters $"<ades version=""2022""><obsBlock><obsContext><submitter><name>A. Einstein</name><institution>Pruessische Akademie</institution>")%list.
Example C52_ascii_example : getXMLFileEncoding none (start ++ tail) = Ok (latin, $"ascii", $"no_BOM").
Proof.
  apply (C52_declared_in_ascii none decl); [exact decl_tells|constructor; now left| |right; apply Nat.leb_le; vm_compute; reflexivity].
  apply Forall_forall. intros c I. apply N.ltb_lt. revert c I. apply forallb_forall. vm_compute. reflexivity.
Qed.
(** the same in EBCDIC, with its line end 15 (hex) *)
Definition to_cp500 (c : N) : N := (fix go (n : nat) (l : list N) := match l with [] => 0%N | x :: l' => if (x =? c)%N then N.of_nat n else go (S n) l' end) O cp500_table.
Example C52_ebcdic_example : getXMLFileEncoding none (map to_cp500 (decl ++ 133%N :: letters $"<ades/>")) = Ok (latin, $"CP500", $"EBCDIC").
Proof.
  apply (C52_declared_in_ebcdic none decl latin); [exact decl_tells| |].
  - apply Forall_forall. intros c I. apply N.ltb_lt. revert c I. apply forallb_forall. vm_compute. reflexivity.
  - assert (E : map cp500 (map to_cp500 (decl ++ 133%N :: letters $"<ades/>")) = (decl ++ 133%N :: letters $"<ades/>")%list) by (vm_compute; reflexivity).
    rewrite E. apply ended_by. cbn [In separator]. unfold separator. cbn [In]. tauto.
Qed.
Example C52_unusual_example : getXMLFileEncoding none [0; 60; 0; 0; 0; 63; 0; 0]%N = Err ValueError.
Proof. apply (C52_unusual_orders none [0; 60; 0; 0]%N); cbn [In]; tauto. Qed.

(** A file without declaration, which is in UTF-8 as XML has it, is refused. *)
Theorem C52_undeclared_refuted : ~ (forall utf7 r, exists x, getXMLFileEncoding utf7 (letters $"<ades" ++ r) = Ok x).
Proof. intros H. destruct (H none []) as (x & E). vm_compute in E. discriminate E. Qed.
Print Assumptions C52_undeclared_refuted.
(** Bytes that are not ASCII soon after the declaration make the encoding unreadable - against what
    the comment in the code says. *)
Theorem C52_soon_refuted : ~ (forall utf7 line coding rest, tells line coding -> Forall (fun c => (c < 128)%N) line ->
  exists x, getXMLFileEncoding utf7 (line ++ 10%N :: rest) = Ok x).
Proof.
  intros H. destruct (H none decl latin (letters $"<!-- " ++ [233]%N)%list decl_tells) as (x & E).
  - apply Forall_forall. intros c I. apply N.ltb_lt. revert c I. apply forallb_forall. vm_compute. reflexivity.
  - vm_compute in E. discriminate E.
Qed.
Print Assumptions C52_soon_refuted.
(** XML allows blanks around the = of a declaration; then UTF-8 is reported. *)
Theorem C52_blanks_refuted utf7 : exists coding ty remark,
  getXMLFileEncoding utf7 (letters $"<?xml version='1.0' encoding = 'ISO-8859-1'?>") = Ok (coding, ty, remark) /\ coding <> latin.
Proof. exists (letters $"UTF-8"), $"ascii", $"no_BOM". split; [vm_compute; reflexivity|vm_compute; discriminate]. Qed.
Print Assumptions C52_blanks_refuted.
(** A word encoding= that is not the declaration's is taken for it. *)
Theorem C52_elsewhere_refuted : ~ (forall utf7 r, exists ty remark,
  getXMLFileEncoding utf7 (letters $"<?xml version='1.0'?>" ++ r) = Ok (letters $"UTF-8", ty, remark) \/
  exists e, getXMLFileEncoding utf7 (letters $"<?xml version='1.0'?>" ++ r) = Err e).
Proof.
  intros H. destruct (H none (letters $"<!-- encoding='none' -->")) as (ty & rm & [E|(e & E)]); vm_compute in E; [|discriminate E].
  apply (f_equal (fun x => match x with Ok (c, _, _) => length c | Err _ => O end)) in E. discriminate E.
Qed.
Print Assumptions C52_elsewhere_refuted.
