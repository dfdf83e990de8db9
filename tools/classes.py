#!/usr/bin/env python3
"""Generates rocq/theories/Classes.v and PropClasses.v from the list of section classes."""
import json,os
here=os.path.dirname(os.path.abspath(__file__))
L=json.load(open(here+'/classes.json'))   # [name, body, kind, rep, inv, theorem, mf, mt or null, (condition on the HEAD d and the text t after it, safety theorem)?]
# without the last two the theorem is a section_codec, with them a section_rt and the
# safety theorem is  forall d mat s, int32 (round_int (c1 (sbase d))) -> condition (t = buf s) -> never_other (rd_section kind d mat s)
imports_model=json.load(open(here+'/classes_imports.json'))
def out(p,s): open(here+'/../rocq/theories/'+p,'w').write(s)
m='''(** Classes.v -- the section classes of the library and the one a file of number MF
    uses for section MT: file/Type/src/readSection.hpp:1-10 (MF not listed below),
    file/1/src/readSection.hpp:1-24, file/2/src/readSection.hpp:1-16, file/7/src/readSection.hpp:1-18,
    file/8/src/readSection.hpp:1-18, file/32/src/readSection.hpp:1-14.
    Generated by tools/classes.py.  A class that is not listed is not modelled; the
    model throws where the library would read it. *)
From Verif Require Import Base Disco Records Sections Typed %s.
Open Scope Z_scope.
(** the classes listed in file/Type.hpp:20-57 and file/1.hpp:1-60, file/2.hpp:1-50, file/7.hpp:1-50, file/8.hpp:1-50, file/32.hpp:1-50 *)
Inductive sclass :=
''' % ' '.join(imports_model['model'])
m+='\n'.join('| %s'%e[0] for e in L)+'.\n'
m+='(** the classes listed in file/Type.hpp:20-57 *)\nDefinition sbody (c : sclass) : Type :=\n  match c with\n'+'\n'.join('  | %s => %s'%(e[0],e[1]) for e in L)+'\n  end.\n'
m+='(** the classes listed in file/Type.hpp:20-57 *)\nDefinition skind_of (c : sclass) : skind (sbody c) :=\n  match c as c return skind (sbody c) with\n'+'\n'.join('  | %s => %s'%(e[0],e[2]) for e in L)+'\n  end.\n'
m+='(** file/Type/src/readSection.hpp:1-10, file/1/src/readSection.hpp:1-24, file/2/src/readSection.hpp:1-16, file/7/src/readSection.hpp:1-18, file/8/src/readSection.hpp:1-18, file/32/src/readSection.hpp:1-14 *)\nDefinition lib_class (mf mt : Z) : option sclass :=\n'
for e in L:
    if e[7] is None: m+='  if mf =? %d then Some %s else\n'%(e[6],e[0])
    else: m+='  if (mf =? %d) && (mt =? %d) then Some %s else\n'%(e[6],e[7],e[0])
m+='  None.\n'
out('Classes.v',m)
G=[e for e in L if len(e)>8]
def sel(e):
    i=G.index(e)
    t='apply proj1 in G.' if i<len(G)-1 else ''
    return 'do %d apply proj2 in G. '%i+t if i else t
p='''(** PropClasses.v -- the table of section classes satisfies [table_ok], so that the
    theorems of PropTyped*.v hold for the library.  Generated by tools/classes.py. *)
From Coq Require Import ZifyBool ZifyNat.
From Verif Require Import Base Disco Records RealRound RealProofs Spec Sections SecSpec SectionProofs Tree TreeSpec Typed TypedSpec PropTyped PropTyped2 PropTyped3 Classes %s.
Open Scope Z_scope.
Definition lib_rep (c : sclass) : sbody c -> Prop :=
  match c as c return sbody c -> Prop with
%s
  end.
Definition lib_inv (c : sclass) : sbody c -> Prop :=
  match c as c return sbody c -> Prop with
%s
  end.
Lemma lib_core c : section_core (skind_of c) (lib_rep c) (lib_inv c).
Proof.
  destruct c; cbn [sbody skind_of lib_rep lib_inv].
%s
Qed.
(** reading a section of file MF with HEAD d from the text t is not undefined behaviour if *)
Definition lib_guard (mf : Z) (d : sdiv) (t : text) : Prop := %s.
(** MF of a class and its MT, if it has only one *)
Definition class_mf (c : sclass) : Z :=
  match c with
%s
  end.
Definition class_mt (c : sclass) : option Z :=
  match c with
%s
  end.
Lemma class_mf_ok c : class_mf c = k_mf (skind_of c). Proof. destruct c; reflexivity. Qed.
Lemma class_mt_ok c : class_mt c = k_fix (skind_of c). Proof. destruct c; reflexivity. Qed.
Lemma lib_class_inv mf mt c : lib_class mf mt = Some c ->
  mf = class_mf c /\\ match class_mt c with Some n => mt = n | None => True end.
Proof.
  intros E. unfold lib_class in E.
  repeat match type of E with
         | (if ?a && ?b then _ else _) = _ =>
             let A := fresh in destruct (a && b) eqn:A;
             [injection E as <-; apply andb_prop in A; exact (conj (proj1 (Z.eqb_eq _ _) (proj1 A)) (proj1 (Z.eqb_eq _ _) (proj2 A)))|cbv iota in E; clear A]
         | (if ?b then _ else _) = _ =>
             let B := fresh in destruct b eqn:B; [injection E as <-; exact (conj (proj1 (Z.eqb_eq _ _) B) Logic.I)|cbv iota in E; clear B]
         end. discriminate.
Qed.
Lemma lib_lines c : section_lines (skind_of c) (lib_guard (k_mf (skind_of c))).
Proof.
  destruct c; cbn [sbody skind_of].
%s
Qed.
Theorem C31_classes : table_ok sclass sbody skind_of lib_class lib_rep lib_inv
  /\\ (forall c d mat s, int32 (round_int (c1 (sbase d))) -> lib_guard (k_mf (skind_of c)) d (buf s) ->
       never_other (Sections.rd_section (skind_of c) d mat s))
  /\\ forall c, section_lines (skind_of c) (lib_guard (k_mf (skind_of c))).
Proof.
  split; [|split; [|exact lib_lines]].
  2:{ intros c d mat s Hz G. destruct c; cbn [sbody skind_of].
%s
  }
  split.
  - exact lib_core.
  - intros c. rewrite <- class_mf_ok. destruct c; (split; [cbn [class_mf]; lia|split; [reflexivity|discriminate]]).
  - intros c n H. rewrite <- class_mt_ok in H. destruct c; try discriminate H; injection H as <-; lia.
  - intros c n H. rewrite <- class_mt_ok in H. rewrite <- class_mf_ok. destruct c; try discriminate H; injection H as <-; reflexivity.
  - intros c n mt H E. rewrite <- class_mt_ok in H. apply lib_class_inv in E. rewrite H in E. exact (proj2 E).
  - intros c mt H. rewrite <- class_mt_ok in H. rewrite <- class_mf_ok. destruct c; try discriminate H; reflexivity.
  - intros mf mt c E. rewrite <- class_mf_ok. apply lib_class_inv in E. symmetry. exact (proj1 E).
  - intros c. rewrite <- class_mf_ok, <- class_mt_ok. destruct c; cbn [class_mf]; intros H; try discriminate H; cbn [class_mt]; auto.
Qed.
''' % (' '.join(imports_model['spec']),
 '\n'.join('  | %s => %s'%(e[0],e[3]) for e in L),
 '\n'.join('  | %s => %s'%(e[0],e[4]) for e in L),
 '\n'.join('  - exact (section_rt_core _ _ _ (proj1 %s)).'%e[5] if len(e)<9 else '  - exact (section_rt_core _ _ _ %s).'%e[5] if len(e)<11 else '  - exact %s.'%e[5] for e in L),
 ' /\\ '.join('(mf = %d -> %s)'%(e[6],e[8]) for e in L if len(e)>8) or 'True',
 '\n'.join('  | %s => %d'%(e[0],e[6]) for e in L),
 '\n'.join('  | %s => %s'%(e[0],'None' if e[7] is None else 'Some %d'%e[7]) for e in L),
 '\n'.join('  - exact (section_rt_lines _ _ _ _ (proj1 %s)).'%e[5] if len(e)<9 else '  - exact (section_rt_lines _ _ _ _ %s).'%e[5] if len(e)<11 else '  - intros h mat s x s1 E G. apply (%s h mat s x s1 E). change (lib_guard %d h (buf s)) in G. %s exact (G eq_refl).'%(e[10],e[6],sel(e)) for e in L),
 '\n'.join('    - exact (proj2 %s d mat s Hz).'%e[5] if len(e)<9 else '    - apply %s; [exact Hz|]. rewrite <- class_mf_ok in G. %s exact (G eq_refl).'%(e[9],sel(e)) for e in L))
p+=open(here+'/classes_tail.txt').read()
out('PropClasses.v',p)
