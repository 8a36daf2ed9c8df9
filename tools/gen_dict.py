# Extracts the ten word lists of /repo/include/cardano/bip39_dictionary.hpp into Coq data files.
import re,sys
src=open('/repo/include/cardano/bip39_dictionary.hpp','rb').read().decode('utf8')
out={}
for m in re.finditer(r'std::array<std::string_view, 2048> (\w+)\{(.*?)\n    \};',src,re.S):
    name,body=m.group(1),m.group(2)
    words=[];cur=b'';
    line0=src[:m.start()].count('\n')+1; line1=src[:m.end()].count('\n')+1
    for ln in body.split('\n'):
        mm=re.match(r'\s*((?:"(?:\\x[0-9a-f]{2})*"\s*)*)(,?)',ln)
        if not mm.group(1): 
            assert not ln.strip() or ln.strip().startswith('//'),ln
            continue
        for lit in re.findall(r'"((?:\\x[0-9a-f]{2})*)"',mm.group(1)): cur+=bytes.fromhex(lit.replace('\\x',''))
        if mm.group(2): words.append(cur);cur=b''
    if cur: words.append(cur)
    out[name]=(words,line0,line1)
for n,(w,a,b) in out.items():
    print(n,len(w),len(set(w)),a,b,max(map(len,w)),any(b' ' in x or x==b'' or x[0]==0 for x in w),any(b'\xe3\x80\x80' in x for x in w))
if len(sys.argv)>1:
    s='(** Generated by /verif/tools/gen_dict.py from /repo/include/cardano/bip39_dictionary.hpp:81-21766.\n    A word is the big-endian number of its (UTF-8) bytes, as spelled by its "\\x.." escapes; no word is empty or starts with a\n    zero byte, so the bytes are recovered by [word_bytes] of Model_Mnemonic. *)\nFrom Verif Require Import Base.\n'
    for n,(w,a,b) in out.items():
        s+='\n(** bip39_dictionary.hpp:%d-%d *)\nDefinition dict_%s : list Z := [\n'%(a,b,n)
        for i in range(0,2048,8): s+='  '+'; '.join('0x'+x.hex() for x in w[i:i+8])+(';\n' if i<2040 else '].\n')
    open('/verif/rocq/theories/Data_Bip39.v','w').write(s)
