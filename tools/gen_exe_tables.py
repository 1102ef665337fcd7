import re
src=open('/repo/fileid/exe/Exec.hpp').read().split('\n')
mo=open('/repo/fileid/exe/macho.hpp').read().split('\n')
def cases(lines,a,b):
    out=[]
    for l in lines[a-1:b]:
        m=re.search(r'case (\w+): ans = "([^"]*)"',l)
        if m: out.append((int(m.group(1),0),m.group(2)))
    return out
def maps(lines,a,b):
    out=[]
    for l in lines[a-1:b]:
        m=re.search(r'\{\s*(0x\w+)\s*,\s*"([^"]*)"\}',l)
        if m: out.append((int(m.group(1),0),m.group(2)))
    return out
def show(name,l,cite):
    s=f'(** {cite} *)\nDefinition {name} : list (N * bytes) := [\n'
    s+=';\n'.join(f'  ({k}, B "{v}")' for k,v in l)+'].\n\n'
    return s
o='''(** The string tables of /repo/fileid/exe/Exec.hpp and /repo/fileid/exe/macho.hpp, transcribed
    row by row (switch statements and map literals, in source order). *)
From Coq Require Import List NArith Strings.String.
From Verif Require Import Lib.Bytes.
Import ListNotations.
Local Open Scope N_scope.

'''
o+=show('CharacteristicsMap',maps(src,114,131),'Exec.hpp:114-131 (a std::map: iterated by ascending key)')
o+=show('DllCharacteristicsMap',maps(src,132,141),'Exec.hpp:132-141')
o+=show('subsystem_names',cases(src,176,188),'Exec.hpp:174-190: GetSubsystemString')
o+=show('machine_names',cases(src,194,217),'Exec.hpp:192-219: GetMachineTypeString')
o+=show('cputype_names',cases(mo,78,100),'macho.hpp:76-103: cpuType2String')
# subtype
o+='(** macho.hpp:104-274: the nested switch of cpuSubType2String, by CPU type *)\nDefinition cpusubtype_names : list (N * list (N * bytes)) := [\n'
rows=[];cur=[];i=106;lines=mo[105:274]
keys=[];body=[];res=[]
for l in lines:
    m=re.match(r'\t\t\tcase (\w+):',l)
    if m:
        if body or (keys and seen): 
            for k in keys: res.append((k,body))
            keys=[];body=[]
        keys.append(int(m.group(1),0)); seen=False
        continue
    if 'switch (cpusubtype)' in l: seen=True
    m=re.search(r'case (\w+): ans = "([^"]*)"',l)
    if m: body.append((int(m.group(1),0),m.group(2)))
for k in keys: res.append((k,body))
o+=';\n'.join(f'  ({k}, ['+';\n     '.join(f'({a}, B "{b}")' for a,b in body)+'])' for k,body in res)+'].\n'
open('/verif/rocq/theories/Exe/Tables.v','w').write(o)
