(** How readers of HTML, Markdown and LaTeX read text back. *)
From Verif Require Import Base.

(** [reads codes active e t]: the source [e] shows the text [t]. A character
    outside [active] shows itself; each code shows its character; nothing else is
    allowed, in particular an active character on its own. *)
Inductive reads (codes : list (str * char)) (active : list char) : str -> str -> Prop :=
| reads_nil : reads codes active [] []
| reads_plain c e t : ~ In c active -> reads codes active e t -> reads codes active (c :: e) (c :: t)
| reads_code k c e t : In (k, c) codes -> reads codes active e t -> reads codes active (k ++ e) (c :: t).

(** HTML text and attribute values: ampersand, angle brackets, both quotes and the carriage return, which the
    HTML input stream turns into a line feed. *)
Definition html_active : list char := [38; 60; 62; 34; 39; 13]%N.
Definition html_codes : list (str * char) :=
  [([38; 97; 109; 112; 59], 38);
   ([38; 108; 116; 59], 60);
   ([38; 103; 116; 59], 62);
   ([38; 113; 117; 111; 116; 59], 34);
   ([38; 35; 120; 50; 55; 59], 39);
   ([38; 35; 49; 51; 59], 13)]%N.

(** CommonMark: a backslash before ASCII punctuation shows it; the characters that
    can start a construct. *)
Definition ascii_punctuation : list char :=
  [33; 34; 35; 36; 37; 38; 39; 40; 41; 42; 43; 44; 45; 46; 47; 58; 59; 60; 61; 62; 63; 64; 91; 92; 93; 94; 95; 96; 123; 124; 125; 126]%N.
Definition md_codes : list (str * char) := map (fun c => ([92%N; c], c)) ascii_punctuation.
(** \ * _ { } [ ] ( ) # + - . ! | ~ > *)
Definition md_most : list char := [92; 42; 95; 123; 125; 91; 93; 40; 41; 35; 43; 45; 46; 33; 124; 126; 62]%N.
(** code spans, tags and character references *)
Definition md_active : list char := 96%N :: 60%N :: 38%N :: md_most.

(** LaTeX: \ & % $ # _ { } ~ ^ *)
Definition latex_active : list char := [92; 38; 37; 36; 35; 95; 123; 125; 126; 94]%N.
Definition latex_codes : list (str * char) :=
  [([92; 116; 101; 120; 116; 98; 97; 99; 107; 115; 108; 97; 115; 104; 123; 125], 92);
   ([92; 38], 38);
   ([92; 37], 37);
   ([92; 36], 36);
   ([92; 35], 35);
   ([92; 95], 95);
   ([92; 123], 123);
   ([92; 125], 125);
   ([92; 116; 101; 120; 116; 97; 115; 99; 105; 105; 116; 105; 108; 100; 101; 123; 125], 126);
   ([92; 116; 101; 120; 116; 97; 115; 99; 105; 105; 99; 105; 114; 99; 117; 109; 123; 125], 94)]%N.
