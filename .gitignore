*.vo
*.vok
*.vos
*.glob
*.aux
.*.aux
.lia.cache
.nia.cache
Makefile*
.Makefile*
.CoqMakefile*
.nra.cache
