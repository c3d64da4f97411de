*.vo
*.vok
*.vos
*.glob
*.aux
.*.aux
.lia.cache
.nia.cache
.nra.cache
.csdp.cache
rocq/Makefile
rocq/Makefile.conf
rocq/.Makefile.d
rocq/.CoqMakefile.d
__pycache__/
