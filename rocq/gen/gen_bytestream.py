# Generates ByteStream.v from /repo/common/byte_stream.h and libhmac_byte_stream.h
import re
out=[]
w=out.append
w('''(* common/byte_stream.h and libhmac_byte_stream.h: the byte order macros, statement by statement.
   The lists below are generated by gen/gen_bytestream.py from the C text.

   A reading macro works on the variable given as its second argument: [RSet k] is
   value = byte_stream[ k ], [ROr k] is value |= byte_stream[ k ] and [RShl] is value <<= 8.
   A writing macro is the list of its stores: [(k, n)] is
   byte_stream[ k ] = (uint8_t) ( ( value >> n ) & 0x0ff ). *)
From Coq Require Import Arith NArith List.
From Verif Require Import Words.
Import ListNotations.
Open Scope N_scope.

Inductive rstmt : Type := RSet (k : nat) | RShl | ROr (k : nat).

(* common/byte_stream.h:54-154: execution on a w-bit variable holding v; None is a read outside the bytes *)
Fixpoint read_macro (w : N) (bytes : list N) (l : list rstmt) (v : N) : option N :=
  match l with
  | [] => Some v
  | RSet k :: t => b <-? aget bytes k; read_macro w bytes t b
  | RShl :: t => read_macro w bytes t (ushl w v 8)
  | ROr k :: t => b <-? aget bytes k; read_macro w bytes t (N.lor v b)
  end.

(* common/byte_stream.h:156-220: execution on the bytes; None is a write outside them *)
Fixpoint write_macro (v : N) (l : list (nat * N)) (bytes : list N) : option (list N) :=
  match l with
  | [] => Some bytes
  | (k, n) :: t => bytes' <-? aset bytes k (N.land (ushr v n) 0xff); write_macro v t bytes'
  end.

(* common/byte_stream.h:222-250 byte_stream_bit_rotate_{left,right}_{8,16,32,64}bit, stored into a variable of
   w bits; for 8 and 16 bits the operand is promoted to int (32 bits) before shifting *)
Definition promoted (w : N) : N := if w <? 32 then 32 else w.
Definition rotate_left_macro (w x n : N) : N := N.lor (ushl (promoted w) x n) (ushr x (w - n)) mod 2 ^ w.
Definition rotate_right_macro (w x n : N) : N := N.lor (ushr x n) (ushl (promoted w) x (w - n)) mod 2 ^ w.
''')
src=open('/repo/common/byte_stream.h').read().split('\n')
names=[]
i=0
while i<len(src):
    m=re.match(r'#define byte_stream_copy_(to|from)_uint(\d+)_(big|little)_endian\( byte_stream, value \) \\$',src[i])
    if not m: i+=1; continue
    j=i+1
    st=[]
    while True:
        l=src[j]; cont=l.rstrip().endswith('\\')
        l=l.rstrip('\\').strip()
        if m[1]=='to':
            a=re.match(r'\( value \)\s+(\|?=) \( byte_stream \)\[ (\d+) \];$',l)
            if a: st.append(('RSet ' if a[1]=='=' else 'ROr ')+a[2])
            else:
                assert l=='( value ) <<= 8;',l
                st.append('RShl')
        else:
            a=re.match(r'\( byte_stream \)\[ (\d+) \] = \(uint8_t\) \( \( \( value \) >> (\d+) \) & 0x0ff \);?$',l)
            if a: st.append(f'({a[1]}%nat, {a[2]})')
            else:
                a=re.match(r'\( byte_stream \)\[ (\d+) \] = \(uint8_t\) \( \( value \) & 0x0ff \);?$',l)
                assert a,l
                st.append(f'({a[1]}%nat, 0)')
        j+=1
        if not cont: break
    n=f"copy_{m[1]}_uint{m[2]}_{m[3]}_endian"
    ty='list rstmt' if m[1]=='to' else 'list (nat * N)'
    w(f"(* common/byte_stream.h:{i+1}-{j} byte_stream_{n} *)\nDefinition {n} : {ty} :=\n  [{'; '.join(st)}].\n")
    names.append(n)
    i=j
src=open('/repo/libhmac/libhmac_byte_stream.h').read().split('\n')
i=0
while i<len(src):
    m=re.match(r'#define libhmac_byte_stream_copy_to_1x_uint(\d+)_(big|little)_endian\( byte_stream, values, values_index \) \\$',src[i])
    if not m: i+=1; continue
    j=i+1; st=[]; sh={'32':'2','64':'3'}[m[1]]
    while True:
        l=src[j]; cont=l.rstrip().endswith('\\')
        l=l.rstrip('\\').strip()
        a=re.match(r'values\[ values_index \]\s+(\|?=) \( byte_stream \)\[ \( values_index << '+sh+r' \)(?: \+ (\d+))? \];$',l)
        if a: st.append(('RSet ' if a[1]=='=' else 'ROr ')+(a[2] or '0'))
        else:
            assert l=='values[ values_index ] <<= 8;',l
            st.append('RShl')
        j+=1
        if not cont: break
    n=f"copy_to_1x_uint{m[1]}_{m[2]}_endian"
    w(f"(* libhmac_byte_stream.h:{i+1}-{j} libhmac_byte_stream_{n}, offsets relative to values_index << {sh} *)\nDefinition {n} : list rstmt :=\n  [{'; '.join(st)}].\n")
    i=j
s='\n'.join(out).rstrip()+'\n'
open('/verif/rocq/theories/ByteStream.v','w').write(s)
