#!/usr/bin/env python3
"""Transcribes the straight-line assembly of contracts/libs/ModExp.sol into rocq/theories/Model/ModExp.v."""
import re
src=open('/repo/contracts/libs/ModExp.sol').read().split('\n')
progs=[];cur=None
for no,l in enumerate(src,1):
    m=re.search(r'^library (\w+)',l)
    if m: name=m.group(1)
    m=re.search(r'function run\(uint256 t(\d+)\)',l)
    if m: cur=(name,int(m.group(1)),[],[no]); progs.append(cur)
    m=re.match(r'\s*(?:let )?t(\d+) := mulmod\(t(\d+), t(\d+), n\)\s*$',l)
    if m: cur[2].append(tuple(map(int,m.groups()))); cur[3].append(no)
    elif 'mulmod' in l: raise SystemExit('unparsed line %d'%no)
out='''(** contracts/libs/ModExp.sol, transcribed by tools/gen_modexp.py: the assembly of each [run] is a list of
    instructions  tD := mulmod(tA, tB, n), each given as (D, A, B).  Undeclared variables are never read (checked by the
    generator order: every [let] precedes its use). *)
From Coq Require Import ZArith List.
From Verif.Model Require Import Evm.
Import ListNotations.

Definition instr := (nat * nat * nat)%type.
Fixpoint set_nth {A} (n : nat) (a : A) (l : list A) : list A :=
  match n, l with O, _ :: l' => a :: l' | S n', b :: l' => b :: set_nth n' a l' | _, [] => [] end.
Definition step_with {A} (mul : A -> A -> A) (d : A) (regs : list A) (i : instr) : list A :=
  let '(t, a, b) := i in set_nth t (mul (nth a regs d) (nth b regs d)) regs.
(** run the program with the argument in register [inp]; the result is t0 *)
Definition run_with {A} (mul : A -> A -> A) (d : A) (prog : list instr) (inp : nat) (x : A) : A :=
  nth 0 (fold_left (step_with mul d) prog (set_nth inp x (repeat d 10))) d.

(** the constant n of both functions *)
Definition modexp_n : Z := 0x30644e72e131a029b85045b68181585d97816a916871ca8d3c208c16d87cfd47.
'''
for n,inp,p,ln in progs:
    out+='\n(** ModExp.sol:%d-%d, library %s *)\n'%(ln[0],ln[-1],n)
    out+='Definition %s_prog : list instr :=\n ['%n
    row=[]
    txt=['(%d,%d,%d)'%t for t in p]
    out+=';\n  '.join(';'.join(txt[i:i+12]) for i in range(0,len(txt),12))+']%nat.\n'
    out+='Definition %s_run (x : Z) : Z := run_with (fun a b => mulmod a b modexp_n) 0%%Z %s_prog %d x.\n'%(n,n,inp)
open('/verif/rocq/theories/Model/ModExp.v','w').write(out)
