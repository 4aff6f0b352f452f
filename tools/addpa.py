import re,sys,glob
# append Print Assumptions for every Theorem of Prop*.v files
for f in sorted(glob.glob('/verif/rocq/theories/Prop*.v')):
    s=open(f).read()
    s=re.sub(r'\n*\(\*\* \* Assumptions \*\)\n(?:Print Assumptions .*\n)*\s*$','\n',s)
    names=re.findall(r'^Theorem (\w+)',s,re.M)
    s=s.rstrip('\n')+'\n\n(** * Assumptions *)\n'+''.join(f'Print Assumptions {n}.\n' for n in names)
    open(f,'w').write(s)
