import re,sys
src=open(sys.argv[1]).read()
for m in re.finditer(r'pub const (\w+) : &\[.*?\] = &\[(.*?)^\s*\];',src,re.S|re.M):
    name,body=m.group(1),m.group(2)
    # tuples at top-level
    depth=0;cur='';rows=[]
    for ch in body:
        if ch=='(' : depth+=1; cur=''; continue
        if ch==')' : depth-=1; rows.append(cur); continue
        if depth>0: cur+=ch
    with open(name+'.txt','w') as f:
        for r in rows:
            nums=re.findall(r'[-+]?\d+\.?\d*(?:[EeDd][-+]?\d+)?',r)
            f.write(' '.join(nums)+'\n')
    print(name,len(rows),len(nums))
