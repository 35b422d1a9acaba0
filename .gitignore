*.vo
*.vok
*.vos
*.glob
*.aux
.lia.cache
.nia.cache
*.conf
rocq/Makefile
Makefile.conf
.Makefile.d
.CoqMakefile.d
__pycache__/
