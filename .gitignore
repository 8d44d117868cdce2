*.vo
*.vos
*.vok
*.glob
*.aux
.*.aux
.lia.cache
.nia.cache
rocq/Makefile
rocq/Makefile.conf
rocq/.Makefile.d
rocq/CoqMakefile.conf
.nra.cache
