(* mkUnicodeTestData/mkUnicodeTestData.cxx -- process(), the tool that turns UnicodeData.txt into the
   array the library's own tests run over.  main() only opens the two files.
   A stream is what is left to read of the file and whether it is still good(); writing never fails. *)
From Coq Require Import ZArith List Bool String Ascii.
From Verif Require Import Machine.
From Verif.Model Require Import SplitJoin.
Import ListNotations.
Local Open Scope Z_scope.

(* the bytes of a string literal *)
Fixpoint literal (s : string) : list Z :=
  match s with
  | EmptyString => []
  | String a s' => Z.of_N (N_of_ascii a) :: literal s'
  end.

Record istream := { unread : list Z; good : bool }.

(* the characters up to the newline, which is removed too, or up to the end of the file *)
Fixpoint take_line (l : list Z) : list Z * istream :=
  match l with
  | [] => ([], {| unread := []; good := false |})
  | c :: l' =>
    if c =? 10 then ([], {| unread := l'; good := true |})
    else let '(line, s) := take_line l' in (c :: line, s)
  end.

(* std::getline(stream, str): [str] is cleared and filled while the stream is good(); reaching the end
   of the file ends good().  When the stream is not good() to begin with, str is left as it was
   ([istream.unformatted], [string.io]: the sentry is false, str.erase() is never called). *)
Definition getline (s : istream) (str : list Z) : list Z * istream :=
  if good s then take_line (unread s) else (str, s).

(* std::string::find(const char* ) != npos *)
Fixpoint starts_with (needle s : list Z) : bool :=
  match needle, s with
  | [], _ => true
  | x :: needle', y :: s' => (x =? y) && starts_with needle' s'
  | _ :: _, [] => false
  end.
Fixpoint found (needle s : list Z) : bool :=
  starts_with needle s || match s with [] => false | _ :: s' => found needle s' end.

(* vector operator[]: undefined outside the vector *)
Definition field (fields : list (list Z)) (i : nat) : outcome (list Z) :=
  match nth_error fields i with Some f => Done f | None => Undefined end.

Definition semicolon : Z := 59.
Definition endl : list Z := [10].

(* mkUnicodeTestData.cxx:79-98 -- the while loop; [out] is what has been written so far *)
Fixpoint process_loop (fuel : nat) (oneLine : list Z) (fields : list (list Z)) (inStream : istream)
  (nCount : Z) (out : list Z) : outcome (list Z) :=
  match fuel with
  | O => OutOfFuel
  | S fuel =>
    if Z.of_nat (List.length oneLine) >? 10 then
      do name <- field fields 1;
      if found (literal "Surrogate") name || found (literal "Private") name then
        let '(oneLine, inStream) := getline inStream oneLine in
        do fields <- split oneLine semicolon;
        process_loop fuel oneLine fields inStream nCount out
      else
        do code <- field fields 0;
        let out := out ++ literal " 0x" ++ code ++ literal "," in
        let '(oneLine, inStream) := getline inStream oneLine in
        do fields <- split oneLine semicolon;
        do nCount <- int_incr nCount;
        let out := if negb (Z.of_nat (List.length oneLine) =? 0) && (nCount mod 10 =? 0)
                   then out ++ endl ++ literal "   " else out in
        process_loop fuel oneLine fields inStream nCount out
    else Done out
  end.

(* mkUnicodeTestData.cxx:67-104 -- process(inbuf, outbuf): what is written for the file [file] *)
Definition process (fuel : nat) (file : list Z) : outcome (list Z) :=
  let '(oneLine, inStream) := getline {| unread := file; good := true |} [] in
  do fields <- split oneLine semicolon;
  match fields with
  | [] => Done []
  | _ =>
    do out <- process_loop fuel oneLine fields inStream 0
                (literal "char32_t validUnicodeCodePoints[] = {" ++ endl ++ literal "    ");
    Done (out ++ literal " 0xFFFFFFFF };" ++ endl)
  end.
