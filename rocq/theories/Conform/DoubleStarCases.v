(** * DoubleStarCases.v: cases of doublestar_test.go, as far as remembered: the file is not in
    /repo. *)
From Verif Require Import Model.Go Model.DoubleStar.
Definition cases : list (string * string * option bool) := [
  ("*", "", Some true);
  ("/*", "/debug/", Some false);
  ("/*", "//", Some false);
  ("abc", "abc", Some true);
  ("*", "abc", Some true);
  ("*c", "abc", Some true);
  ("*/", "a/", Some true);
  ("a*", "a", Some true);
  ("a*", "abc", Some true);
  ("a*", "ab/c", Some false);
  ("a*/b", "abc/b", Some true);
  ("a*/b", "a/c/b", Some false);
  ("a*b*c*d*e*", "axbxcxdxe", Some true);
  ("a*b*c*d*e*/f", "axbxcxdxe/f", Some true);
  ("a*b*c*d*e*/f", "axbxcxdxexxx/f", Some true);
  ("a*b*c*d*e*/f", "axbxcxdxe/xxx/f", Some false);
  ("a*b*c*d*e*/f", "axbxcxdxexxx/fff", Some false);
  ("a*b?c*x", "abxbbxdbxebxczzx", Some true);
  ("a*b?c*x", "abxbbxdbxebxczzy", Some false);
  ("ab[c]", "abc", Some true);
  ("ab[b-d]", "abc", Some true);
  ("ab[e-g]", "abc", Some false);
  ("ab[^c]", "abc", Some false);
  ("ab[^b-d]", "abc", Some false);
  ("ab[^e-g]", "abc", Some true);
  ("a\*b", "ab", Some false);
  ("a?b", "a☺b", Some true);
  ("a[^a]b", "a☺b", Some true);
  ("a???b", "a☺b", Some false);
  ("[a-ζ]*", "α", Some true);
  ("*[a-ζ]", "A", Some false);
  ("a?b", "a/b", Some false);
  ("a*b", "a/b", Some false);
  ("[\]a]", "]", Some true);
  ("[\-]", "-", Some true);
  ("[x\-]", "x", Some true);
  ("[x\-]", "-", Some true);
  ("[x\-]", "z", Some false);
  ("[\-x]", "x", Some true);
  ("[\-x]", "-", Some true);
  ("[\-x]", "a", Some false);
  ("[]a]", "]", None);
  ("[-]", "-", None);
  ("[x-]", "x", None);
  ("[x-]", "-", None);
  ("[-x]", "x", None);
  ("[a-b-d]", "a", None);
  ("[a-b-x]", "x", None);
  ("[", "a", None);
  ("[^", "a", None);
  ("[^bc", "a", None);
  ("a[", "ab", None);
  ("*x", "xxx", Some true);
  ("a/**", "a", Some false);
  ("a/**", "a/b", Some true);
  ("a/**", "a/b/c", Some true);
  ("**/c", "c", Some true);
  ("**/c", "b/c", Some true);
  ("**/c", "a/b/c", Some true);
  ("**/c", "a/b", Some false);
  ("**/c", "abcd", Some false);
  ("**/c", "a/abc", Some false);
  ("a/**/b", "a/b", Some true);
  ("a/**/c", "a/b/c", Some true);
  ("a/**/d", "a/b/c/d", Some true);
  ("a/\**", "a/b/c", Some false);
  ("ab{c,d}", "abc", Some true);
  ("ab{c,d,*}", "abcde", Some true);
  ("ab{c,d}[", "abcd", None);
  ("abc/**", "abc/b", Some true);
  ("**/abc", "abc", Some true);
  ("abc**", "abc/b", Some false)].
Example match_test : map (fun c => doubleStar (fst (fst c)) (snd (fst c))) cases = map snd cases.
Proof. vm_compute. reflexivity. Qed.
