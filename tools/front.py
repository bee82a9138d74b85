#!/usr/bin/env python3
"""Write theories/Drive_Front.v: which definitions of C_*.v belong to which file of /repo/Src.

The list is checked by the theorem C104_program in Props_Front.v; nothing here is trusted."""
import re, os, collections
T = os.path.join(os.path.dirname(os.path.abspath(__file__)), '..', 'rocq', 'theories') + '/'

files=collections.OrderedDict()
mods=['C_Utils','C_Base64','C_Containers','C_Sort','C_Crypto','C_Crc','C_CrcVariants','C_Json']
for m in mods:
    s=open(T+m+'.v').read()
    for f,l,n in re.findall(r'\(\*\* (\S+\.c):(\d+)-\d+; parameters.*?\nDefinition (c_\w+) : fundef',s,re.S):
        files.setdefault(f,[]).append((int(l),n,m))
src={}
for f in files:
    files[f].sort()
    src[f]=re.sub(r'/\*.*?\*/|//[^\n]*',lambda m:'\n'*m.group(0).count('\n'),open('/repo/Src/'+f).read(),flags=re.S)
def cname(f,n):
    n=n[2:]
    for p in('PQ_','Map_'):
        if n.startswith(p) and not re.search(r'\b%s\s*\('%n,src[f]): n=n[len(p):]
    assert re.search(r'\b%s\s*\('%n,src[f]),(f,n)
    return n
def static(f,l): return 'static' in src[f].split('\n')[l-1]
out=[]
for f in files:
    ents=['("%s", %s, %s)'%(cname(f,n),'true' if static(f,l) else 'false',n) for l,n,m in files[f]]
    b=os.path.basename(f)
    out.append((b,'funs_'+b.replace('.','_'),ents,'Src/'+f))
def wrap(ents,ind):
    lines=[];cur=''
    for k,e in enumerate(ents):
        x=e+('; ' if k+1<len(ents) else '')
        if cur and len(cur)+len(x)>92-ind: lines.append(cur.rstrip()); cur=''
        cur+=x
    lines.append(cur)
    return '['+('\n'+' '*(ind+1)).join(lines)+']'
D='''(** * The functions of [/repo/Src], file by file

    What the translation of the files of [/repo/Src] should return: for each file the functions
    it defines, in order, with their definitions in [C_*.v].  A flag marks static functions. *)
From Coq Require Import String.
From Verif Require Import CSem CLang CFront CSystem.
From Verif Require Import %s.
From Verif Require Import %s.
Local Open Scope string_scope.
Local Open Scope list_scope.

(** the texts, by file name *)
Definition repo : files :=
  %s ++ system.

(** functions that other files may call *)
Definition externs (l : list (string * bool * fundef)) : list (string * fundef) :=
  flat_map (fun '(x, static, d) => if (static : bool) then [] else [(x, d)]) l.

(** files one after the other, each seeing the functions of those before *)
Fixpoint program (fs : files) (funs : list (string * fundef)) (l : list string)
  : option (list (string * list (string * bool * fundef))) :=
  match l with
  | [] => Some []
  | f :: l =>
      ds ← translate fs funs f;
      r ← program fs (externs ds ++ funs) l;
      Some ((f, ds) :: r)
  end.

(** the functions that the text of [/repo] defines and exports, by name *)
Definition functions (p : list (string * list (string * bool * fundef)))
  : list (string * fundef) := flat_map (fun x => externs (snd x)) p.

(** call of the function [x] of the program in the files [l] of [fs] *)
Definition run_text {W} (sc : bool)
    (ext : Z -> list val -> mem -> W -> outcome (val * mem * W)) (fuel : nat)
    (fs : files) (l : list string) (x : string) (args : list val) (m : mem) (w : W)
  : outcome (val * mem * W) :=
  match p ← program fs [] l; assoc x (functions p) with
  | Some d => call sc ext fuel d args m w
  | None => UB BadType
  end.

'''
txt=['Text_Utils','Text_Containers','Text_Sort','Text_Crypto','Text_Crc','Text_Crc8','Text_Crc16','Text_Crc32','Text_Headers','Text_HeadersCrc']
r=[]
s=D%(' '.join(mods),' '.join(txt),' ++ '.join(t.lower() for t in txt).replace('text_crc32 ++','text_crc32 ++\n  '))
for b,d,e,m in out:
    s+='(** %s *)\nDefinition %s : list (string * bool * fundef) :=\n  %s.\n'%(m,d,wrap(e,2))
s+='\n(** every file of [/repo/Src], after those it calls *)\nDefinition c_program : list (string * list (string * bool * fundef)) :=\n  '+wrap(['("%s", %s)'%(b,d) for b,d,e,m in out],2)+'.\n'
s+='Definition sources : list string := map fst c_program.\n'
open(T+'Drive_Front.v','w').write(s)
print(len(out),'files',sum(len(e) for _,_,e,_ in out),'functions')
