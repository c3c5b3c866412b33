(** Escaping of exported text.

    Sources: crates/document_io/src/use_cases/export_{html,markdown,latex}_uc.rs,
    crates/public_api/src/fragment.rs. *)
From Verif Require Import Base.

(** [str::replace] of one character by a string. *)
Definition replace_char (c : char) (by_ : str) (s : str) : str :=
  flat_map (fun x => if (x =? c)%N then by_ else [x]) s.

(** The six entities of export_html_uc.rs:523-533. *)
Definition e_amp : str := [38; 97; 109; 112; 59]%N.
Definition e_lt : str := [38; 108; 116; 59]%N.
Definition e_gt : str := [38; 103; 116; 59]%N.
Definition e_quot : str := [38; 113; 117; 111; 116; 59]%N.
Definition e_apos : str := [38; 35; 120; 50; 55; 59]%N.
Definition e_cr : str := [38; 35; 49; 51; 59]%N.
(** export_html_uc.rs:522-534 [escape_html]: six passes. *)
Definition escape_html (s : str) : str :=
  replace_char 13%N e_cr
    (replace_char 39%N e_apos
      (replace_char 34%N e_quot
        (replace_char 62%N e_gt
          (replace_char 60%N e_lt
            (replace_char 38%N e_amp s))))).
(** fragment.rs:359-377 [escape_html]: one pass. *)
Definition escape_html_fragment (s : str) : str :=
  flat_map (fun c => match c with
    | 38 => e_amp | 60 => e_lt | 62 => e_gt | 34 => e_quot | 39 => e_apos | 13 => e_cr | _ => [c] end)%N s.

(** export_markdown_uc.rs:513-526 [escape_markdown]: \ * _ { } [ ] ( ) # + - . ! | ~ > *)
Definition md_export_escaped : list char :=
  [92; 42; 95; 123; 125; 91; 93; 40; 41; 35; 43; 45; 46; 33; 124; 126; 62]%N.
Definition escape_by (set : list char) (s : str) : str :=
  flat_map (fun c => if existsb (N.eqb c) set then [92%N; c] else [c]) s.
Definition escape_markdown (s : str) : str := escape_by md_export_escaped s.
(** fragment.rs:505-534 [escape_markdown]: the same and ` < *)
Definition md_fragment_escaped : list char :=
  [92; 96; 42; 95; 123; 125; 91; 93; 40; 41; 35; 43; 45; 46; 33; 124; 126; 60; 62]%N.
Definition escape_markdown_fragment (s : str) : str := escape_by md_fragment_escaped s.

(** export_latex_uc.rs:522-540 [escape_latex]. *)
Definition l_backslash : str := [92; 116; 101; 120; 116; 98; 97; 99; 107; 115; 108; 97; 115; 104; 123; 125]%N. (* \textbackslash{} *)
Definition l_tilde : str := [92; 116; 101; 120; 116; 97; 115; 99; 105; 105; 116; 105; 108; 100; 101; 123; 125]%N. (* \textasciitilde{} *)
Definition l_circ : str := [92; 116; 101; 120; 116; 97; 115; 99; 105; 105; 99; 105; 114; 99; 117; 109; 123; 125]%N. (* \textasciicircum{} *)
Definition escape_latex (s : str) : str :=
  flat_map (fun c => match c with
    | 92 => l_backslash | 38 => [92; 38] | 37 => [92; 37] | 36 => [92; 36] | 35 => [92; 35] | 95 => [92; 95]
    | 123 => [92; 123] | 125 => [92; 125] | 126 => l_tilde | 94 => l_circ | _ => [c] end)%N s.
