#!/usr/bin/env python3
"""Transcribe constant tables and unrolled macro sequences of /repo/libhmac
into theories/Tables.v.  Only run by hand; the generated file is committed."""
import re
R="/repo/libhmac/"
out=[]
def w(s=""): out.append(s)
w("(* Generated by gen/gen_tables.py from /repo/libhmac/*_context.c: constant tables")
w("   and the argument lists of the unrolled macro invocations, in source order.")
w("   Nothing here is computed: every number is copied from the C text. *)")
w("From Coq Require Import NArith List.")
w("Import ListNotations.")
w("Open Scope N_scope.")
w()
def lines(a): return open(R+f"libhmac_{a}_context.c").read().split("\n")
def array(a,name,cname):
    L=lines(a)
    s=next(i for i,l in enumerate(L) if re.search(r"\b"+cname+r"\[ \d+ \] = \{",l))
    e=next(i for i in range(s,len(L)) if L[i].startswith("};"))
    declared=int(re.search(r"\[ (\d+) \]",L[s]).group(1))
    nums=re.findall(r"0x[0-9a-f]+|\b\d+\b"," ".join(L[s+1:e]).replace("UL","").replace("ULL",""))
    assert len(nums)==declared,(a,name,len(nums),declared)
    vals=[int(x,0) for x in nums]
    w(f"(* libhmac_{a}_context.c:{s+1}-{e+1} {cname}[{declared}] *)")
    w(f"Definition {name} : list N :=")
    body="; ".join(hex(v) for v in vals)
    # wrap
    items=[hex(v) for v in vals]; rows=[]
    per=4
    for i in range(0,len(items),per): rows.append("; ".join(items[i:i+per]))
    w("  [ "+";\n    ".join(rows)+" ].")
    w()
    return vals
def natarray(a,name,cname):
    L=lines(a)
    s=next(i for i,l in enumerate(L) if re.search(r"\b"+cname+r"\[ \d+ \] = \{",l))
    e=next(i for i in range(s,len(L)) if L[i].startswith("};"))
    nums=re.findall(r"\b\d+\b"," ".join(L[s+1:e]))
    w(f"(* libhmac_{a}_context.c:{s+1}-{e+1} {cname}[{len(nums)}] *)")
    w(f"Definition {name} : list nat :=")
    rows=["; ".join(nums[i:i+16]) for i in range(0,len(nums),16)]
    w("  ([ "+";\n    ".join(rows)+" ])%nat.")
    w()
def invocs(a,macro,rng=None):
    """list of (line, suffix, args) of invocations of macro* (not the #define)"""
    res=[]
    for i,l in enumerate(lines(a)):
        m=re.match(r"\s+"+macro+r"(\w*)\( (.*) \);?",l.rstrip(" \\"))
        if m: res.append((i+1,m.group(1),[x.strip() for x in m.group(2).split(",")]))
    return res
# md5
array("md5","md5_fixed_constants","libhmac_md5_context_fixed_constants")
array("md5","md5_sines","libhmac_md5_context_sines")
natarray("md5","md5_bit_shifts","libhmac_md5_context_bit_shifts")
natarray("md5","md5_values_32bit_index","libhmac_md5_context_values_32bit_index")
iv=invocs("md5","libhmac_md5_context_transform_unfolded_calculate_hash_value_round")
assert len(iv)==64
w(f"(* libhmac_md5_context.c:{iv[0][0]}-{iv[-1][0]}: (round macro, value_32bit_index, (index0, index1, index2, index3), block_index) *)")
w("Definition md5_unfolded : list (nat * nat * (nat * nat * nat * nat) * nat) :=")
w("  ([ "+";\n    ".join(f"({s}, {x[1]}, ({x[3]}, {x[4]}, {x[5]}, {x[6]}), {x[7]})" for _,s,x in iv)+" ])%nat.")
w()
# sha1
array("sha1","sha1_fixed_constants","libhmac_sha1_context_fixed_constants")
ex=[x for x in invocs("sha1","libhmac_sha1_context_transform_extend_32bit_value") if x[2][1].isdigit()]
assert len(ex)==64
w(f"(* libhmac_sha1_context.c:{ex[0][0]}-{ex[-1][0]}: value_32bit_index arguments of the unrolled extension *)")
w("Definition sha1_unfolded_extend : list nat :=")
w("  ([ "+"; ".join(x[1] for _,_,x in ex)+" ])%nat.")
w()
iv=invocs("sha1","libhmac_sha1_context_transform_unfolded_calculate_hash_value_round")
assert len(iv)==80
w(f"(* libhmac_sha1_context.c:{iv[0][0]}-{iv[-1][0]}: (round macro, value_32bit_index, (index0, ..., index4)) *)")
w("Definition sha1_unfolded : list (nat * nat * (nat * nat * nat * nat * nat)) :=")
w("  ([ "+";\n    ".join(f"({s}, {x[1]}, ({', '.join(x[3:8])}))" for _,s,x in iv)+" ])%nat.")
w()
for a,bits,n in (("sha224",32,64),("sha256",32,64),("sha512",64,80)):
    array(a,f"{a}_square_roots",f"libhmac_{a}_context_prime_square_roots")
    array(a,f"{a}_cube_roots",f"libhmac_{a}_context_prime_cube_roots")
    ex=[x for x in invocs(a,f"libhmac_{a}_context_transform_extend_{bits}bit_value") if len(x[2])>1 and x[2][1].isdigit()]
    assert len(ex)==n-16,(a,len(ex))
    w(f"(* libhmac_{a}_context.c:{ex[0][0]}-{ex[-1][0]}: value_{bits}bit_index arguments of the unrolled extension *)")
    w(f"Definition {a}_unfolded_extend : list nat :=")
    w("  ([ "+"; ".join(x[1] for _,_,x in ex)+" ])%nat.")
    w()
    iv=[x for x in invocs(a,f"libhmac_{a}_context_transform_unfolded_calculate_hash_value") if len(x[2])>5 and x[2][1].isdigit()]
    assert len(iv)==n,(a,len(iv))
    w(f"(* libhmac_{a}_context.c:{iv[0][0]}-{iv[-1][0]}: (value_{bits}bit_index, (index0, ..., index7)) *)")
    w(f"Definition {a}_unfolded : list (nat * (nat * nat * nat * nat * nat * nat * nat * nat)) :=")
    w("  ([ "+";\n    ".join(f"({x[1]}, ({', '.join(x[3:11])}))" for _,s,x in iv)+" ])%nat.")
    w()
# 16x copy macros
L=open(R+"libhmac_byte_stream.h").read().split("\n")
for bits in (32,64):
  for en in ("big","little"):
    idx=[(i+1,re.search(r"values, (\d+) \)",l).group(1)) for i,l in enumerate(L) if re.match(r"\s+libhmac_byte_stream_copy_to_1x_uint%d_%s_endian\( byte_stream, values, \d+ \)"%(bits,en),l)]
    assert len(idx)==16
    w(f"(* libhmac_byte_stream.h:{idx[0][0]}-{idx[-1][0]}: values_index arguments of copy_to_16x_uint{bits}_{en}_endian *)")
    w(f"Definition copy_16x_uint{bits}_{en} : list nat :=")
    w("  ([ "+"; ".join(x for _,x in idx)+" ])%nat.")
    w()
# unrolled digest stores in the fallback finalize
for a in ("md5","sha1","sha224","sha256","sha512"):
    L=lines(a)
    res=[]
    for i in range(len(L)-1):
        m=re.match(r"\t &\( hash\[ (\d+) \] \),",L[i])
        n=re.match(r"\t internal_context->hash_values\[ (\d+) \] \);",L[i+1])
        if m and n: res.append((i+1,m.group(1),n.group(1)))
    w(f"(* libhmac_{a}_context.c:{res[0][0]}-{res[-1][0]+1}: (hash offset, hash_values index) of the unrolled digest stores *)")
    w(f"Definition {a}_unfolded_stores : list (N * nat) :=")
    w("  [ "+"; ".join(f"({o}, {i}%nat)" for _,o,i in res)+" ].")
    w()
open("/verif/rocq/theories/Tables.v","w").write("\n".join(out))
