(** The named character entities of HTML 4.01 (W3C Recommendation, section 24: Latin-1 characters, symbols and Greek letters,
    markup-significant and internationalisation characters), independent of the table of the bundled Mini-XML: runs of
    consecutive code points are given by their first code point and their names in order. The standard, not /repo, is modelled. *)
From Verif Require Import CBase.
Local Open Scope string_scope.
Local Open Scope Z_scope.
Local Open Scope list_scope.
(** A run: the names of the code points [c], [c + 1], ... *)
Fixpoint run_of (c : Z) (names : list String.string) : list (cstr * Z) :=
  match names with [] => [] | n :: ns => (s2z n, c) :: run_of (c + 1) ns end.
Definition html_runs : list (Z * list String.string) :=
  [(160, ["nbsp"; "iexcl"; "cent"; "pound"; "curren"; "yen"; "brvbar"; "sect"; "uml"; "copy"; "ordf"; "laquo"; "not"; "shy"; "reg"; "macr";
      "deg"; "plusmn"; "sup2"; "sup3"; "acute"; "micro"; "para"; "middot"; "cedil"; "sup1"; "ordm"; "raquo"; "frac14"; "frac12";
      "frac34"; "iquest"; "Agrave"; "Aacute"; "Acirc"; "Atilde"; "Auml"; "Aring"; "AElig"; "Ccedil"; "Egrave"; "Eacute"; "Ecirc";
      "Euml"; "Igrave"; "Iacute"; "Icirc"; "Iuml"; "ETH"; "Ntilde"; "Ograve"; "Oacute"; "Ocirc"; "Otilde"; "Ouml"; "times"; "Oslash";
      "Ugrave"; "Uacute"; "Ucirc"; "Uuml"; "Yacute"; "THORN"; "szlig"; "agrave"; "aacute"; "acirc"; "atilde"; "auml"; "aring"; "aelig";
      "ccedil"; "egrave"; "eacute"; "ecirc"; "euml"; "igrave"; "iacute"; "icirc"; "iuml"; "eth"; "ntilde"; "ograve"; "oacute"; "ocirc";
      "otilde"; "ouml"; "divide"; "oslash"; "ugrave"; "uacute"; "ucirc"; "uuml"; "yacute"; "thorn"; "yuml"]);
   (913, ["Alpha"; "Beta"; "Gamma"; "Delta"; "Epsilon"; "Zeta"; "Eta"; "Theta"; "Iota"; "Kappa"; "Lambda"; "Mu"; "Nu"; "Xi"; "Omicron";
      "Pi"; "Rho"]);
   (931, ["Sigma"; "Tau"; "Upsilon"; "Phi"; "Chi"; "Psi"; "Omega"]);
   (945, ["alpha"; "beta"; "gamma"; "delta"; "epsilon"; "zeta"; "eta"; "theta"; "iota"; "kappa"; "lambda"; "mu"; "nu"; "xi"; "omicron";
      "pi"; "rho"; "sigmaf"; "sigma"; "tau"; "upsilon"; "phi"; "chi"; "psi"; "omega"]);
   (8204, ["zwnj"; "zwj"; "lrm"; "rlm"]);
   (8216, ["lsquo"; "rsquo"; "sbquo"]);
   (8220, ["ldquo"; "rdquo"; "bdquo"]);
   (8224, ["dagger"; "Dagger"; "bull"]);
   (8592, ["larr"; "uarr"; "rarr"; "darr"; "harr"]);
   (8656, ["lArr"; "uArr"; "rArr"; "dArr"; "hArr"]);
   (8711, ["nabla"; "isin"; "notin"]);
   (8743, ["and"; "or"; "cap"; "cup"; "int"]);
   (8834, ["sub"; "sup"; "nsub"]);
   (8968, ["lceil"; "rceil"; "lfloor"; "rfloor"])].
Definition html_single : list (Z * list String.string) :=
  [(34, ["quot"]); (38, ["amp"]); (60, ["lt"]); (62, ["gt"]); (338, ["OElig"; "oelig"]); (352, ["Scaron"; "scaron"]);
   (376, ["Yuml"]); (402, ["fnof"]); (710, ["circ"]); (732, ["tilde"]); (977, ["thetasym"; "upsih"]); (982, ["piv"]);
   (8194, ["ensp"; "emsp"]); (8201, ["thinsp"]); (8211, ["ndash"; "mdash"]); (8230, ["hellip"]); (8240, ["permil"]);
   (8242, ["prime"; "Prime"]); (8249, ["lsaquo"; "rsaquo"]); (8254, ["oline"]); (8260, ["frasl"]); (8364, ["euro"]);
   (8465, ["image"]); (8472, ["weierp"]); (8476, ["real"]); (8482, ["trade"]); (8501, ["alefsym"]); (8629, ["crarr"]);
   (8704, ["forall"]); (8706, ["part"; "exist"]); (8709, ["empty"]); (8715, ["ni"]); (8719, ["prod"]); (8721, ["sum"; "minus"]);
   (8727, ["lowast"]); (8730, ["radic"]); (8733, ["prop"; "infin"]); (8736, ["ang"]); (8756, ["there4"]); (8764, ["sim"]);
   (8773, ["cong"]); (8776, ["asymp"]); (8800, ["ne"; "equiv"]); (8804, ["le"; "ge"]); (8838, ["sube"; "supe"]); (8853, ["oplus"]);
   (8855, ["otimes"]); (8869, ["perp"]); (8901, ["sdot"]); (9001, ["lang"; "rang"]); (9674, ["loz"]); (9824, ["spades"]);
   (9827, ["clubs"]); (9829, ["hearts"; "diams"])].
Definition html4 : list (cstr * Z) := flat_map (fun r => run_of (fst r) (snd r)) (html_runs ++ html_single).
(** XML's predefined entity that HTML 4 lacks, and four older synonyms. *)
Definition synonyms : list (cstr * Z) :=
  [(s2z "apos", 39); (s2z "brkbar", 166); (s2z "die", 168); (s2z "hibar", 175); (s2z "Dstrok", 208)].
